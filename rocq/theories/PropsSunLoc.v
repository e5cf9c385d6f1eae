(** Property C129: the sine temperatures with the hours of the extremes taken from the sun times, in binary64 arithmetic. *)
From Coq Require Import String ZArith List Bool Lia Reals Lra Floats.
From Flocq Require Import Core.
From Verif Require Import Py Num Cal Series Trans UtilModel UtilModel2 Frame TempModel SpecBase SpecUtil TimeProofs IndexProofs DaysProofs TempProofs
  F64 CascadeFloat CascadeRound FiveRound AggRound SpecCourseRound CourseRound SpecSineRound SineModel ErrCalc SineRound
  PropsSineRound PotAnyModel SpecPotAny PotAny PropsRadAny PropsPotAny SunAnyModel SpecSunAny SunAny PropsSunAny PropsVapAny PropsStation5 SunLocModel SpecSunLoc.
Import ListNotations.
Open Scope Z_scope.

(** the formulas are those of the other properties *)
Definition as_row (s : sun_line xr) : sun_row := {| sunrise := l_rise s; sunnoon := l_noon s; sunset := l_set s; daylength := l_length s |}.
Theorem C129_same e (d : dframe xr) method modn (md : option (list (Z * xr))) mc st :
  (method = "sine_min_max" \/ method = "sine_mean" \/ method = "sine")%string ->
  temp_sun xround to_int xcos xpi e d (String.eqb method "sine_mean") modn md st
  = disaggregate_temperature e d method (if md then "sun_loc_shift" else "sun_loc") modn md mc (Some (map (fun p => (fst p, as_row (snd p))) st)).
Proof.
  intro HM. rewrite (C106_same_formula e d method _ modn md mc _ HM). unfold temp_sun.
  destruct (hourly_index e (f_index d)) as [hours|]; [|reflexivity]. cbn [bind].
  assert (EC : forall f, sun_col f (map (fun p => (fst p, as_row (snd p))) st) = map (fun p => (fst p, f (as_row (snd p)))) st).
  { intro f. unfold sun_col. rewrite map_map. reflexivity. }
  assert (EL : sun_locations xround (f_index d) md st = locations (f_index d) (if md then "sun_loc_shift" else "sun_loc") md (Some (map (fun p => (fst p, as_row (snd p))) st))).
  { unfold sun_locations, locations. destruct md as [md|]; cbn [String.eqb Ascii.eqb Bool.eqb]; rewrite !EC; [|reflexivity].
    destruct (mapM _ (f_index d)) as [deltas|]; [|reflexivity]. cbn [bind]. rewrite map_length. destruct (negb _); [reflexivity|].
    assert (EM : map (fun p => (fst (fst p), xround (sunnoon (snd (fst p)) + snd p)%num)) (combine (map (fun p => (fst p, as_row (snd p))) st) deltas)
               = map (fun p => (fst (fst p), xround (l_noon (snd (fst p)) + snd p)%num)) (combine st deltas)).
    { clear. revert deltas. induction st as [|a st IH]; intros [|b deltas]; try reflexivity. cbn [map combine]. f_equal. apply IH. }
    rewrite EM. reflexivity. }
  rewrite EL. destruct (locations _ _ _ _) as [locs|]; [|reflexivity]. cbn [bind].
  destruct (mapM to_int (fst locs)); [|reflexivity]. cbn [bind]. destruct (mapM to_int (snd locs)); [|reflexivity]. cbn [bind].
  destruct (temp_sine _ _ _ _ _ _ _ _); [|reflexivity]. cbn [bind].
  assert (EP : polar_any e st hours = polar_branch e (map (fun p => (fst p, as_row (snd p))) st) hours).
  { unfold polar_any, polar_branch.
    replace (map (fun p => (fst p, (daylength (snd p) <? n_ofZ 3)%num)) (map (fun p => (fst p, as_row (snd p))) st))
      with (map (fun p => (fst p, (l_length (snd p) <? n_ofZ 3)%num)) st) by (rewrite map_map; reflexivity).
    reflexivity. }
  rewrite EP. reflexivity.
Qed.
Print Assumptions C129_same.

Open Scope R_scope.
Lemma whole_format k : (Z.abs k <= 2 ^ 53)%Z -> rnd (IZR k) = IZR k.
Proof. intro H. destruct (ofZ_val k H) as [_ E]. rewrite <- E. apply rnd_fval. Qed.
Lemma add_whole x y j k : ffin x -> ffin y -> fval x = IZR j -> fval y = IZR k -> (Z.abs (j + k) <= 2 ^ 53)%Z ->
  ffin (x + y)%num /\ fval (x + y)%num = IZR (j + k).
Proof.
  intros Fx Fy Ex Ey H. destruct (fadd_correct x y Fx Fy) as [E F].
  - rewrite Ex, Ey, <- plus_IZR, whole_format by exact H. unfold big. rewrite <- abs_IZR. apply Rle_lt_trans with (IZR (2 ^ 53)); [apply IZR_le; exact H|].
    change (IZR (2 ^ 53)) with (bpow radix2 53). apply bpow_lt. reflexivity.
  - split; [exact F|]. change (fval (x + y)%num) with (fval (x + y)%float). rewrite E, Ex, Ey, <- plus_IZR. apply whole_format. exact H.
Qed.

Section Locations.
  Context {T : Type} {N : Num T}.
  Variable roundf : T -> T.
  Lemma aligned_rows (f : Z -> sun_line T) (g : sun_line T -> T) idx :
    aligned (map (fun p => (fst p, g (snd p))) (map (fun t => (t, f t)) idx)) idx = map (fun t => g (f t)) idx.
  Proof. unfold aligned. apply map_ext_in. intros t H. rewrite map_map. cbn [fst snd]. rewrite (lookup_map_id (fun u => g (f u)) idx t H). reflexivity. Qed.
  Lemma locations_plain f idx : sun_locations roundf idx None (map (fun t => (t, f t)) idx)
    = Ok (map (fun t => roundf (l_rise (f t))) idx, map (fun t => (roundf (l_noon (f t)) + n_ofZ 2)%num) idx).
  Proof. unfold sun_locations. rewrite (aligned_rows f (fun s => roundf (l_rise s))), (aligned_rows f (fun s => (roundf (l_noon s) + n_ofZ 2)%num)). reflexivity. Qed.
  Lemma locations_shift f idx md delta : (forall t, In t idx -> lookup (month_of t) md = Some (delta t)) ->
    sun_locations roundf idx (Some md) (map (fun t => (t, f t)) idx)
    = Ok (map (fun t => roundf (l_rise (f t))) idx,
          map (fun t => if (roundf (l_rise (f t)) >? roundf (l_noon (f t) + delta t))%num then (roundf (l_noon (f t)) + n_ofZ 2)%num else roundf (l_noon (f t) + delta t)%num) idx).
  Proof.
    intro H. unfold sun_locations. rewrite (aligned_rows f (fun s => roundf (l_rise s))), (aligned_rows f (fun s => (roundf (l_noon s) + n_ofZ 2)%num)).
    rewrite (mapM_Ok _ delta) by (intros t Ht; rewrite (H t Ht); reflexivity). cbn [bind]. rewrite !map_length, Nat.eqb_refl. cbn [negb].
    rewrite TempCourse.combine_maps, map_map. cbn [fst snd].
    assert (E : aligned (map (fun t => (t, roundf (l_noon (f t) + delta t)%num)) idx) idx = map (fun t => roundf (l_noon (f t) + delta t)%num) idx).
    { unfold aligned. apply map_ext_in. intros t Ht. rewrite (lookup_map_id (fun u => roundf (l_noon (f u) + delta u)%num) idx t Ht). reflexivity. }
    rewrite E, !TempCourse.combine_maps, map_map. reflexivity.
  Qed.
End Locations.

Lemma mapM_some {A B} (f : A -> res B) (P : A -> B -> Prop) l : (forall a, In a l -> exists b, f a = Ok b /\ P a b) ->
  exists m, mapM f l = Ok m /\ Forall2 P l m.
Proof.
  induction l as [|a l IH]; intro H; [exists []; split; [reflexivity|constructor]|].
  destruct (H a (or_introl eq_refl)) as (b & E & Q). destruct IH as (m & E2 & F); [intros x Hx; apply H; right; exact Hx|].
  exists (b :: m). cbn [mapM]. rewrite E. cbn [bind]. rewrite E2. split; [reflexivity|constructor; assumption].
Qed.
Lemma Forall2_at {A B} (P : A -> B -> Prop) l m i a b : Forall2 P l m -> nth_error l i = Some a -> nth_error m i = Some b -> P a b.
Proof. intro F. revert i. induction F as [|x y l m H F IH]; intros [|i]; cbn; try discriminate; [intros [= ->] [= ->]; exact H|apply IH]. Qed.
Lemma Forall2_len {A B} (P : A -> B -> Prop) l m : Forall2 P l m -> length m = length l.
Proof. induction 1; cbn; congruence. Qed.

(** one day: the sun line is near the exact one *)
Section Day.
  Variables (roundf : float -> float) (intf : float -> res Z).
  Hypothesis GR : good_round roundf.
  Hypothesis GI : good_int intf.

  Lemma round_near x r e : within e x r -> 0 <= e <= 1 -> Rabs r <= 900 -> exists k, ffin (roundf x) /\ fval (roundf x) = IZR k /\ full_hour e k r /\ (Z.abs k <= 1000)%Z.
  Proof.
    intros [F W] He Hr. apply Flocq.Core.Raux.Rabs_le_inv in W. apply Flocq.Core.Raux.Rabs_le_inv in Hr.
    destruct (GR x F) as (k & FK & EK & NK); [apply Rabs_le; lra|]. apply Flocq.Core.Raux.Rabs_le_inv in NK.
    exists k. split; [apply ffin_spec; exact FK|]. split; [exact EK|]. split; [unfold full_hour; apply Rabs_le; lra|].
    apply le_IZR. rewrite abs_IZR. apply Rabs_le. lra.
  Qed.

  Lemma full_weaken e f k r : full_hour e k r -> e <= f -> full_hour f k r.
  Proof. unfold full_hour. lra. Qed.
  Let e8 := 1 / 10 ^ 8.
  Lemma day_hours (s : sun_line float) rise noon : within e8 (l_rise s) rise -> within e8 (l_noon s) noon -> 0 <= rise -> rise <= noon - 1.5 -> noon <= 21 ->
    exists mn, intf (roundf (l_rise s)) = Ok mn /\ full_hour (2 * e8) mn rise /\ (0 <= mn)%Z /\
      (exists mx, intf (roundf (l_noon s) + n_ofZ 2)%num = Ok mx /\ top_hour (2 * e8) noon None mn mx /\ (mn < mx < 24)%Z) /\
      forall dl, PrimFloat.is_finite dl = true -> Rabs (fval dl) <= 8 -> noon + fval dl <= 23 ->
        exists mx, intf (if (roundf (l_rise s) >? roundf (l_noon s + dl))%num then (roundf (l_noon s) + n_ofZ 2)%num else roundf (l_noon s + dl)%num) = Ok mx /\
          top_hour (2 * e8) noon (Some (fval dl)) mn mx /\ (mn <= mx < 24)%Z.
  Proof.
    intros WR WN H0 H1 H2. assert (E8 : 0 <= e8 <= 1 / 10 ^ 8) by (unfold e8; lra).
    destruct (round_near _ _ _ WR ltac:(lra) ltac:(apply Rabs_le; lra)) as (mn & F1 & V1 & N1 & B1).
    destruct (round_near _ _ _ WN ltac:(lra) ltac:(apply Rabs_le; lra)) as (m & F2 & V2 & N2 & B2).
    apply (full_weaken _ (2 * e8)) in N1; [|lra]. apply (full_weaken _ (2 * e8)) in N2; [|lra].
    destruct (ofZ_val 2 ltac:(lia)) as [F3 V3]. destruct (add_whole _ _ _ _ F2 F3 V2 V3 ltac:(lia)) as [F4 V4].
    pose proof N1 as Q1. pose proof N2 as Q2. unfold full_hour in Q1, Q2. apply Flocq.Core.Raux.Rabs_le_inv in Q1. apply Flocq.Core.Raux.Rabs_le_inv in Q2.
    assert (M0 : (0 <= mn)%Z) by (assert (-1 < IZR mn) by lra; apply Zlt_succ_le; apply lt_IZR in H; lia).
    assert (ST : (mn < m + 2 < 24)%Z) by (split; apply lt_IZR; rewrite plus_IZR; lra).
    exists mn. split; [apply GI; [apply ffin_spec; exact F1|exact V1|lia]|]. split; [exact N1|]. split; [exact M0|].
    assert (SI : intf (roundf (l_noon s) + n_ofZ 2)%num = Ok (m + 2)%Z) by (apply GI; [apply ffin_spec; exact F4|exact V4|lia]).
    assert (SH : full_hour (2 * e8) (m + 2 - 2) noon) by (replace (m + 2 - 2)%Z with m by lia; exact N2).
    split; [exists (m + 2)%Z; split; [exact SI|split; [exact SH|exact ST]]|].
    intros dl FD BD HD. destruct WN as [FN WN]. apply Flocq.Core.Raux.Rabs_le_inv in BD. apply Flocq.Core.Raux.Rabs_le_inv in WN.
    assert (FV : Rabs (noon + fval dl) <= 900) by (apply Rabs_le; lra).
    assert (WA : within (1.1 * e8) (l_noon s + dl)%num (noon + fval dl)).
    { assert (A1 : apb (l_noon s) noon e8 21) by (split; [split; [apply ffin_spec; exact FN|apply Rabs_le; lra]|apply Rabs_le; lra]).
      assert (A2 : apb dl (fval dl) 0 8) by (split; [split; [apply ffin_spec; exact FD|rewrite Rminus_diag_eq by reflexivity; rewrite Rabs_R0; lra]|apply Rabs_le; lra]).
      destruct (b_add _ _ _ _ _ _ _ _ (1.1 * e8) 29 A1 A2 ltac:(lra) ltac:(unfold e8; lra) ltac:(lra)) as [[F A] _].
      split; [apply ffin_spec; exact F|exact A]. }
    destruct (round_near _ _ _ WA ltac:(lra) FV) as (k & F5 & V5 & N5 & B5).
    apply (full_weaken _ (2 * e8)) in N5; [|lra]. pose proof N5 as Q5. unfold full_hour in Q5. apply Flocq.Core.Raux.Rabs_le_inv in Q5.
    assert (K1 : (k < 24)%Z) by (apply lt_IZR; lra).
    change ((roundf (l_rise s) >? roundf (l_noon s + dl))%num) with (roundf (l_noon s + dl)%num <? roundf (l_rise s))%float.
    destruct (fltb_correct _ _ F5 F1) as [L|L]; rewrite V5, V1 in L.
    - apply lt_IZR in L. exists (m + 2)%Z. split; [exact SI|]. split; [exists k; split; [exact N5|right; split; [exact L|exact SH]]|lia].
    - apply Rnot_lt_le, le_IZR in L. exists k. split; [apply GI; [apply ffin_spec; exact F5|exact V5|lia]|]. split; [exists k; split; [exact N5|left; split; [exact L|reflexivity]]|lia].
  Qed.
End Day.

Lemma not_polar e (f : Z -> sun_line float) idx hours : (forall t, In t idx -> ffin (l_length (f t)) /\ 3 <= fval (l_length (f t))) ->
  polar_any e (map (fun t => (t, f t)) idx) hours = Ok tt.
Proof.
  intro H. unfold polar_any. rewrite map_map. cbn [fst snd].
  assert (E : filter (fun p : Z * bool => snd p) (map (fun t => (t, (l_length (f t) <? n_ofZ 3)%num)) idx) = []).
  { induction idx as [|t idx IH]; [reflexivity|]. cbn [map filter snd]. destruct (H t (or_introl eq_refl)) as [F B].
    destruct (ofZ_val 3 ltac:(lia)) as [F3 V3].
    change (l_length (f t) <? n_ofZ 3)%num with (l_length (f t) <? n_ofZ 3)%float. destruct (fltb_correct _ _ F F3) as [L|L]; [rewrite V3 in L; lra|].
    apply IH. intros u Hu. apply H. right. exact Hu. }
  rewrite E. reflexivity.
Qed.

(** the hours of the extremes: the sunrise and the chosen time after noon, rounded to full hours; the temperatures are those of property C106 with these hours *)
Theorem C129_hours roundf intf sinf cosf tanf acosf e (d : dframe float) use_mean modn d0 n lon lat tz shifts :
  good_round roundf -> good_int intf -> good_sine sinf -> good_cosine cosf -> good_tangent tanf -> good_arccosine acosf ->
  degrees lon -> degrees lat -> Rabs (fval lat) <= 89 -> zone tz ->
  f_index d = daily_index d0 n ->
  (forall i, (i < n)%nat -> ordinary_day (fval lon) (fval lat) (fval tz) (d0 + Z.of_nat i)) ->
  (forall i, (i < n)%nat -> shift_fits shifts (noon_R (doy_of_day (d0 + Z.of_nat i)) (fval lon) (fval tz)) (d0 + Z.of_nat i)) ->
  exists mins maxs, length mins = n /\ length maxs = n /\
    temp_sun roundf intf cosf np_pi e d use_mean modn shifts (sun_times_any np_pi sinf cosf tanf acosf (f_index d) lon lat tz)
    = (let* _ := hourly_index e (f_index d) in temp_sine cosf np_pi e d use_mean modn mins maxs) /\
    forall i mn mx, nth_error mins i = Some mn -> nth_error maxs i = Some mx ->
      let day := (d0 + Z.of_nat i)%Z in
      full_hour (2 / 10 ^ 8) mn (rise_time (fval lon) (fval lat) (fval tz) day) /\
      top_hour (2 / 10 ^ 8) (noon_R (doy_of_day day) (fval lon) (fval tz)) (shift_on shifts day) mn mx /\
      (0 <= mn <= mx)%Z /\ (mx < 24)%Z /\ (shifts = None -> mn < mx)%Z.
Proof.
  intros GR GI GS GC GT GA HL HA BA HZ FI OD SF. set (st := sun_times_any np_pi sinf cosf tanf acosf (f_index d) lon lat tz).
  set (idx := f_index d) in *. set (f := fun t => sun_any np_pi sinf cosf tanf acosf (doy_of_day (date_of t)) lon lat tz).
  assert (ES : st = map (fun t => (t, f t)) idx) by reflexivity.
  assert (DAY : forall t, In t idx -> exists i, (i < n)%nat /\ t = ((d0 + Z.of_nat i) * us_day)%Z /\ nth_error idx i = Some t).
  { intros t Ht. rewrite FI in Ht. unfold daily_index, grid in Ht. apply in_map_iff in Ht as (i & E & Hi). apply in_seq in Hi. exists i. split; [lia|]. split; [lia|].
    rewrite FI. unfold daily_index, grid. rewrite nth_error_map, (nth_error_nth' (seq 0 n) i O) by (rewrite seq_length; lia). rewrite seq_nth by lia. cbn [option_map Nat.add]. rewrite E. reflexivity. }
  assert (LI : length idx = n) by (rewrite FI; unfold daily_index, grid; rewrite map_length, seq_length; reflexivity).
  set (noon := fun t => noon_R (doy_of_day (date_of t)) (fval lon) (fval tz)). set (rise := fun t => rise_time (fval lon) (fval lat) (fval tz) (date_of t)).
  assert (NEAR : forall t, In t idx -> within (1 / 10 ^ 8) (l_rise (f t)) (rise t) /\ within (1 / 10 ^ 8) (l_noon (f t)) (noon t) /\
            0 <= rise t /\ rise t <= noon t - 1.5 /\ noon t <= 21 /\ ffin (l_length (f t)) /\ 3 <= fval (l_length (f t)) /\ shift_fits shifts (noon t) (date_of t)).
  { intros t Ht. destruct (DAY t Ht) as (i & Hi & Et & _). assert (ED : date_of t = (d0 + Z.of_nat i)%Z) by (rewrite Et; apply day_start_date).
    assert (Hs : In (t, f t) st) by (rewrite ES; apply in_map_iff; exists t; split; [reflexivity|exact Ht]).
    destruct (OD i Hi) as (U & L3 & R0 & N21). specialize (SF i Hi). rewrite <- ED in U, L3, R0, N21, SF.
    destruct (C126_near sinf cosf tanf acosf idx lon lat tz t (f t) GS GC GT GA HL HA BA HZ Hs U) as ((k & K & _ & K2 & W) & _ & FL & WL).
    destruct (C126_range sinf cosf tanf acosf idx lon lat tz GS GC GT GA HL HA HZ) as [_ RG]. destruct (RG t (f t) Hs) as ([FN WN] & _).
    unfold rise, rise_time, noon. rewrite (K2 R0), Rplus_0_r in W. split; [exact W|]. apply Flocq.Core.Raux.Rabs_le_inv in WN. split; [split; [exact FN|apply Rabs_le; lra]|].
    apply Flocq.Core.Raux.Rabs_le_inv in WL. split; [lra|]. split; [lra|]. split; [exact N21|]. split; [apply ffin_spec; exact FL|]. split; [lra|exact SF]. }
  assert (PO : forall hours, polar_any e st hours = Ok tt) by (intro hours; rewrite ES; apply not_polar; intros t Ht; destruct (NEAR t Ht) as (_ & _ & _ & _ & _ & A & B & _); split; assumption).
  set (P := fun t mn => intf (roundf (l_rise (f t))) = Ok mn).
  set (Q := fun t mx => exists mn, P t mn /\ full_hour (2 / 10 ^ 8) mn (rise t) /\ top_hour (2 / 10 ^ 8) (noon t) (shift_on shifts (date_of t)) mn mx /\ (0 <= mn <= mx)%Z /\ (mx < 24)%Z /\ (shifts = None -> mn < mx)%Z).
  assert (E2 : 2 * (1 / 10 ^ 8) = 2 / 10 ^ 8) by lra.
  assert (LOC : exists ml xl mins maxs, sun_locations roundf idx shifts st = Ok (ml, xl) /\ mapM intf ml = Ok mins /\ mapM intf xl = Ok maxs /\ Forall2 P idx mins /\ Forall2 Q idx maxs).
  { rewrite ES. destruct shifts as [md|].
    - set (delta := fun t => match lookup (month_of t) md with Some v => v | None => n_nan end).
      assert (DL : forall t, In t idx -> lookup (month_of t) md = Some (delta t) /\ PrimFloat.is_finite (delta t) = true /\ Rabs (fval (delta t)) <= 8 /\ noon t + fval (delta t) <= 23).
      { intros t Ht. destruct (NEAR t Ht) as (_ & _ & _ & _ & _ & _ & _ & s & L & X). rewrite <- month_date in L. unfold delta. rewrite L. split; [reflexivity|exact X]. }
      rewrite (locations_shift roundf f idx md delta) by (intros t Ht; apply DL; exact Ht).
      assert (M1 : exists mins, mapM (fun t => intf (roundf (l_rise (f t)))) idx = Ok mins /\ Forall2 P idx mins).
      { apply mapM_some. intros t Ht. destruct (NEAR t Ht) as (A1 & A2 & A3 & A4 & A5 & _). destruct (day_hours roundf intf GR GI (f t) (rise t) (noon t) A1 A2 A3 A4 A5) as (mn & B & _). exists mn. split; exact B. }
      assert (M2 : exists maxs, mapM (fun t => intf (if (roundf (l_rise (f t)) >? roundf (l_noon (f t) + delta t))%num then (roundf (l_noon (f t)) + n_ofZ 2)%num else roundf (l_noon (f t) + delta t)%num)) idx = Ok maxs /\ Forall2 Q idx maxs).
      { apply mapM_some. intros t Ht. destruct (NEAR t Ht) as (A1 & A2 & A3 & A4 & A5 & _). destruct (day_hours roundf intf GR GI (f t) (rise t) (noon t) A1 A2 A3 A4 A5) as (mn & B & C & D & _ & X).
        destruct (DL t Ht) as (DL0 & DL1 & DL2 & DL3). destruct (X (delta t) DL1 DL2 DL3) as (mx & Y1 & Y2 & Y3). exists mx. split; [exact Y1|]. exists mn. rewrite E2 in C, Y2. split; [exact B|]. split; [exact C|].
        split; [unfold shift_on; rewrite <- month_date, DL0; exact Y2|]. split; [lia|]. split; [lia|discriminate]. }
      destruct M1 as (mins & X1 & X2). destruct M2 as (maxs & Y1 & Y2). do 2 eexists. exists mins, maxs. split; [reflexivity|]. rewrite !mapM_map. auto.
    - rewrite (locations_plain roundf f idx).
      assert (M1 : exists mins, mapM (fun t => intf (roundf (l_rise (f t)))) idx = Ok mins /\ Forall2 P idx mins).
      { apply mapM_some. intros t Ht. destruct (NEAR t Ht) as (A1 & A2 & A3 & A4 & A5 & _). destruct (day_hours roundf intf GR GI (f t) (rise t) (noon t) A1 A2 A3 A4 A5) as (mn & B & _). exists mn. split; exact B. }
      assert (M2 : exists maxs, mapM (fun t => intf (roundf (l_noon (f t)) + n_ofZ 2)%num) idx = Ok maxs /\ Forall2 Q idx maxs).
      { apply mapM_some. intros t Ht. destruct (NEAR t Ht) as (A1 & A2 & A3 & A4 & A5 & _). destruct (day_hours roundf intf GR GI (f t) (rise t) (noon t) A1 A2 A3 A4 A5) as (mn & B & C & D & (mx & Y1 & Y2 & Y3) & _).
        exists mx. split; [exact Y1|]. exists mn. rewrite E2 in C, Y2. split; [exact B|]. split; [exact C|]. split; [exact Y2|]. split; [lia|]. split; [lia|intros _; lia]. }
      destruct M1 as (mins & X1 & X2). destruct M2 as (maxs & Y1 & Y2). do 2 eexists. exists mins, maxs. split; [reflexivity|]. rewrite !mapM_map. auto. }
  destruct LOC as (ml & xl & mins & maxs & L0 & L1 & L2 & F1 & F2). exists mins, maxs.
  split; [rewrite (Forall2_len _ _ _ F1); exact LI|]. split; [rewrite (Forall2_len _ _ _ F2); exact LI|]. split.
  - unfold temp_sun. fold idx. destruct (hourly_index e idx) as [hours|]; [|reflexivity]. cbv beta iota delta [bind]. rewrite L0. cbn [fst snd]. rewrite L1, L2.
    destruct (temp_sine cosf np_pi e d use_mean modn mins maxs) as [out|]; [|reflexivity]. rewrite PO. reflexivity.
  - intros i mn mx H1 H2 day. assert (Hi : (i < n)%nat) by (rewrite <- LI, <- (Forall2_len _ _ _ F1); apply nth_error_Some; congruence).
    destruct (nth_error idx i) as [t|] eqn:Ht; [|apply nth_error_None in Ht; lia].
    assert (ED : date_of t = day).
    { rewrite FI in Ht. unfold daily_index, grid in Ht. rewrite nth_error_map, (nth_error_nth' (seq 0 n) i O) in Ht by (rewrite seq_length; lia). rewrite seq_nth in Ht by lia. cbn [option_map Nat.add] in Ht.
      apply (f_equal (fun o => match o with Some x => x | None => 0%Z end)) in Ht. cbv beta iota in Ht. rewrite <- Ht. replace (d0 * us_day + Z.of_nat i * us_day)%Z with (day * us_day)%Z by (unfold day; lia). apply day_start_date. }
    pose proof (Forall2_at _ _ _ _ _ _ F1 Ht H1) as P1. destruct (Forall2_at _ _ _ _ _ _ F2 Ht H2) as (mn' & P2 & X). unfold P in P1, P2. rewrite P1 in P2. injection P2 as <-.
    unfold rise, noon in X. rewrite ED in X. exact X.
Qed.
Print Assumptions C129_hours.

Lemma sine_hours {T} {N : Num T} (cosf : T -> T) pi e (d : dframe T) use_mean modn mins maxs out : temp_sine cosf pi e d use_mean modn mins maxs = Ok out ->
  exists hours, hourly_index e (f_index d) = Ok hours.
Proof. unfold temp_sine. destruct (hourly_index e (f_index d)) as [hours|]; [|discriminate]. intros _. exists hours. reflexivity. Qed.

(** the temperatures: every hour on the course between the extremes that apply to it, with these hours; the hour of the maximum carries the day's maximum, with the
    night-time variant the hour of the minimum the day's minimum *)
Theorem C129_temperatures roundf intf sinf cosf tanf acosf e (d : dframe float) modn d0 tmin tmax temp lon lat tz shifts :
  good_round roundf -> good_int intf -> good_sine sinf -> good_cosine cosf -> good_tangent tanf -> good_arccosine acosf ->
  degrees lon -> degrees lat -> Rabs (fval lat) <= 89 -> zone tz -> daily_temps d d0 tmin tmax temp ->
  (forall i, (i < length temp)%nat -> ordinary_day (fval lon) (fval lat) (fval tz) (d0 + Z.of_nat i)) ->
  (forall i, (i < length temp)%nat -> shift_fits shifts (noon_R (doy_of_day (d0 + Z.of_nat i)) (fval lon) (fval tz)) (d0 + Z.of_nat i)) ->
  exists out, temp_sun roundf intf cosf np_pi e d false modn shifts (sun_times_any np_pi sinf cosf tanf acosf (f_index d) lon lat tz) = Ok out /\
    map fst out = hours_index d0 (length temp) /\
    forall i, (i < length temp)%nat -> exists mn mx, let day := (d0 + Z.of_nat i)%Z in
      full_hour (2 / 10 ^ 8) mn (rise_time (fval lon) (fval lat) (fval tz) day) /\
      top_hour (2 / 10 ^ 8) (noon_R (doy_of_day day) (fval lon) (fval tz)) (shift_on shifts day) mn mx /\
      (0 <= mn <= mx)%Z /\ (mx < 24)%Z /\ (shifts = None -> mn < mx)%Z /\
      (forall h lo hi, (h < 24)%nat -> low_for n_nan tmin i mx h = lo -> high_for n_nan tmax i mn h = hi -> tame lo -> tame hi ->
        exists w, nth_error (values_on day out) h = Some w /\
          nearly (Rmax (Rabs (fval lo)) (Rabs (fval hi))) w (course_between (fval lo) (fval hi) (if modn then split_angle mn mx (Z.of_nat h) else day_angle mx (Z.of_nat h)))) /\
      (forall lo next hi, (mn < mx)%Z -> nth_error tmin i = Some lo -> nth_error tmax i = Some hi -> next_or_own n_nan tmin i = next -> tame lo -> tame hi -> tame next ->
        (exists w, nth_error (values_on day out) (Z.to_nat mx) = Some w /\ nearly (Rmax (Rabs (fval next)) (Rabs (fval hi))) w (fval hi)) /\
        (modn = true -> exists w, nth_error (values_on day out) (Z.to_nat mn) = Some w /\ nearly (Rmax (Rabs (fval lo)) (Rabs (fval hi))) w (fval lo))).
Proof.
  intros GR GI GS GC GT GA HL HA BA HZ DT OD SF. pose proof DT as (_ & FI & _).
  destruct (C129_hours roundf intf sinf cosf tanf acosf e d false modn d0 (length temp) lon lat tz shifts GR GI GS GC GT GA HL HA BA HZ FI OD SF) as (mins & maxs & L1 & L2 & E & H).
  destruct (C106_sine_min_max cosf e d d0 tmin tmax temp modn mins maxs GC DT L1 L2) as (out & E1 & I1 & V1).
  destruct (C106_extremes cosf e d d0 tmin tmax temp modn mins maxs GC DT L1 L2) as (out2 & E2 & V2). rewrite E1 in E2. apply Ok_same in E2. subst out2.
  exists out. split; [rewrite E; destruct (sine_hours _ _ _ _ _ _ _ _ _ E1) as (hours & ->); cbv beta iota delta [bind]; exact E1|]. split; [exact I1|].
  intros i Hi. destruct (nth_error mins i) as [mn|] eqn:N1; [|apply nth_error_None in N1; lia]. destruct (nth_error maxs i) as [mx|] eqn:N2; [|apply nth_error_None in N2; lia].
  exists mn, mx. cbv zeta. destruct (H i mn mx N1 N2) as (A & B & C & D & F). split; [exact A|]. split; [exact B|]. split; [exact C|]. split; [exact D|]. split; [exact F|]. split.
  - intros h lo hi Hh El Eh Tl Th. apply (V1 i h mn mx lo hi Hi Hh N1 N2); try assumption; [split; lia|intros _; lia].
  - intros lo next hi M El Eh En Tl Th Tn. apply (V2 i mn mx lo next hi Hi N1 N2); try assumption; lia.
Qed.
Print Assumptions C129_temperatures.
(** 'sine_mean': the course about the given mean with these hours; the mean of the day is the given one *)
Theorem C129_sine_mean roundf intf sinf cosf tanf acosf e (d : dframe float) modn d0 tmin tmax temp lon lat tz shifts :
  good_round roundf -> good_int intf -> good_sine sinf -> good_cosine cosf -> good_tangent tanf -> good_arccosine acosf ->
  degrees lon -> degrees lat -> Rabs (fval lat) <= 89 -> zone tz -> daily_temps d d0 tmin tmax temp ->
  (forall i, (i < length temp)%nat -> ordinary_day (fval lon) (fval lat) (fval tz) (d0 + Z.of_nat i)) ->
  (forall i, (i < length temp)%nat -> shift_fits shifts (noon_R (doy_of_day (d0 + Z.of_nat i)) (fval lon) (fval tz)) (d0 + Z.of_nat i)) ->
  exists out, temp_sun roundf intf cosf np_pi e d true modn shifts (sun_times_any np_pi sinf cosf tanf acosf (f_index d) lon lat tz) = Ok out /\
    map fst out = hours_index d0 (length temp) /\
    forall i lo hi m, nth_error tmin i = Some lo -> nth_error tmax i = Some hi -> nth_error temp i = Some m -> tame lo -> tame hi -> tame m ->
      let day := (d0 + Z.of_nat i)%Z in
      let B := Rmax (Rabs (fval m)) (Rmax (Rabs (fval lo)) (Rabs (fval hi))) in
      let ws := values_on day out in
      (exists mn mx, full_hour (2 / 10 ^ 8) mn (rise_time (fval lon) (fval lat) (fval tz) day) /\
        top_hour (2 / 10 ^ 8) (noon_R (doy_of_day day) (fval lon) (fval tz)) (shift_on shifts day) mn mx /\ (0 <= mx < 24)%Z /\
        forall h, (h < 24)%nat -> exists w, nth_error ws h = Some w /\ nearly B w (fval m + (fval hi - fval lo) / 2 * cos (day_angle mx (Z.of_nat h)))) /\
      length ws = 24%nat /\ Rabs (Rsum (map fval ws) - 24 * fval m) <= 24 * (1 / 10 ^ 13 * B + 1 / 10 ^ 300).
Proof.
  intros GR GI GS GC GT GA HL HA BA HZ DT OD SF. pose proof DT as (_ & FI & _).
  destruct (C129_hours roundf intf sinf cosf tanf acosf e d true modn d0 (length temp) lon lat tz shifts GR GI GS GC GT GA HL HA BA HZ FI OD SF) as (mins & maxs & L1 & L2 & E & H).
  destruct (C106_sine_mean cosf e d d0 tmin tmax temp modn mins maxs GC DT L1 L2) as (out & E1 & I1 & V1).
  exists out. split; [rewrite E; destruct (sine_hours _ _ _ _ _ _ _ _ _ E1) as (hours & ->); cbv beta iota delta [bind]; exact E1|]. split; [exact I1|].
  intros i lo hi m El Eh Em Tl Th Tm. assert (Hi : (i < length temp)%nat) by (apply nth_error_Some; congruence).
  destruct (nth_error mins i) as [mn|] eqn:N1; [|apply nth_error_None in N1; lia]. destruct (nth_error maxs i) as [mx|] eqn:N2; [|apply nth_error_None in N2; lia].
  destruct (H i mn mx N1 N2) as (A & B & C & D & F). assert (PL : plausible mn mx) by (split; lia).
  destruct (V1 i mn mx lo hi m N1 N2 PL El Eh Em Tl Th Tm) as (X1 & X2 & X3). cbv zeta. split; [|split; [exact X1|exact X3]].
  exists mn, mx. split; [exact A|]. split; [exact B|]. split; [lia|exact X2].
Qed.
Print Assumptions C129_sine_mean.

(** such functions exist: rounding to a nearest whole number, and truncation *)
Definition nearest_whole (x : float) : float := n_ofZ (ZnearestE (fval x)).
Definition whole_part (x : float) : res Z := if PrimFloat.is_finite x then Ok (Ztrunc (fval x)) else Err ValueError.
Example C129_functions_exist : good_round nearest_whole /\ good_int whole_part.
Proof.
  split.
  - intros x _ H. exists (ZnearestE (fval x)). pose proof (Znearest_half (fun z => negb (Z.even z)) (fval x)) as HN. apply Flocq.Core.Raux.Rabs_le_inv in HN. apply Flocq.Core.Raux.Rabs_le_inv in H.
    assert (B : (Z.abs (ZnearestE (fval x)) <= 2 ^ 53)%Z).
    { apply Z.le_trans with 1001%Z; [|lia]. apply le_IZR. rewrite abs_IZR. apply Rabs_le. change (/ 2) with (/ 2) in HN. lra. }
    destruct (ofZ_val _ B) as [F E]. split; [apply ffin_spec; exact F|]. split; [exact E|]. apply Rabs_le. lra.
  - intros x k F E _. unfold whole_part. rewrite F, E, Ztrunc_IZR. reflexivity.
Qed.
(** at 45 degrees north on the meridian of the time zone every day of every year is ordinary, with and without a shift of up to 8 hours *)
Lemma acos_quarter u : Rabs u <= 0.6 -> PI / 4 <= acos u <= 3 * (PI / 4).
Proof.
  intro H. apply Flocq.Core.Raux.Rabs_le_inv in H. pose proof pi_bounds as P. pose proof (acos_bound u) as B. pose proof (cos_acos u ltac:(lra)) as C.
  assert (Q : 0.6 < cos (PI / 4)) by (apply Rlt_le_trans with 0.69; [lra|]; pose proof (pre_cos_bound (PI / 4) 0 ltac:(lra) ltac:(lra)) as [L _]; unfold cos_approx, cos_term in L; cbn in L; nra).
  assert (Q3 : cos (3 * (PI / 4)) = - cos (PI / 4)) by (replace (3 * (PI / 4)) with (- (PI / 4) + PI) by lra; rewrite neg_cos, cos_neg; reflexivity). split.
  - destruct (Rle_lt_dec (PI / 4) (acos u)) as [L|L]; [exact L|]. pose proof (cos_decreasing_1 (acos u) (PI / 4) ltac:(lra) ltac:(lra) ltac:(lra) ltac:(lra) L) as D. rewrite C in D. lra.
  - destruct (Rle_lt_dec (acos u) (3 * (PI / 4))) as [L|L]; [exact L|]. pose proof (cos_decreasing_1 (3 * (PI / 4)) (acos u) ltac:(lra) ltac:(lra) ltac:(lra) ltac:(lra) L) as D. rewrite C, Q3 in D. lra.
Qed.
Example C129_met day : ordinary_day 15 45 1 day /\
  shift_fits (Some (map (fun m => (m, 2.5%float)) [1; 2; 3; 4; 5; 6; 7; 8; 9; 10; 11; 12]%Z)) (noon_R (doy_of_day day) 15 1) day.
Proof.
  assert (HD : (1 <= doy_of_day day <= 366)%Z) by (rewrite <- (day_start_date day); apply doy_range).
  destruct C126_functions_exist as (GS & GC & GT & _). destruct (tan_decl rounded_sin rounded_cosine rounded_tan GS GC GT _ HD) as [_ T].
  destruct (eq_near rounded_sin rounded_cosine GS GC _ HD) as [_ E]. apply Flocq.Core.Raux.Rabs_le_inv in E. pose proof pi_bounds as P.
  assert (N : 11.6 <= noon_R (doy_of_day day) 15 1 <= 12.4) by (unfold noon_R; lra).
  assert (U : Rabs (rise_cos (decl_R (doy_of_day day)) 45) <= 0.6).
  { unfold rise_cos. replace (45 * (PI / 180)) with (PI / 4) by lra. rewrite tan_PI4. replace (- (1) * tan (decl_R (doy_of_day day))) with (- tan (decl_R (doy_of_day day))) by ring. rewrite Rabs_Ropp. lra. }
  destruct (acos_quarter _ U) as [A1 A2]. split.
  - unfold ordinary_day. cbv zeta. set (a := acos _) in *.
    assert (Q : 1 / 4 <= a / PI <= 3 / 4) by (split; apply Rmult_le_reg_r with PI; try lra; unfold Rdiv; rewrite (Rmult_assoc a), Rinv_l by lra; lra).
    split; [lra|]. split; [lra|]. split; lra.
  - exists 2.5%float. assert (V : fval 2.5%float = 2.5) by (unfold fval; vm_compute; lra). rewrite V.
    split; [|split; [reflexivity|split; [rewrite Rabs_pos_eq; lra|lra]]].
    pose proof (month_range day) as M. assert (K : forall m, In m [1; 2; 3; 4; 5; 6; 7; 8; 9; 10; 11; 12]%Z -> lookup m (map (fun m => (m, 2.5%float)) [1; 2; 3; 4; 5; 6; 7; 8; 9; 10; 11; 12]%Z) = Some 2.5%float).
    { intros m Hm. exact (lookup_map_id (fun _ => 2.5%float) _ m Hm). }
    apply K. cbn [In]. lia.
Qed.
