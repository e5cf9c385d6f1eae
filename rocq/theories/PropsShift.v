(** Property C130: the monthly shift of the temperature maximum in binary64 arithmetic. *)
From Coq Require Import String ZArith List Bool Lia Reals Lra Floats.
From Flocq Require Import Core.
From Verif Require Import Py Num Cal Series Trans UtilModel UtilModel2 Frame TempModel SpecBase SpecUtil SpecTemp TimeProofs IndexProofs DaysProofs InterpProofs SunProofs CourseProofs TempProofs TempShift
  F64 CascadeFloat CascadeRound FiveRound AggRound SpecCourseRound CourseRound SpecSineRound SineModel ErrCalc SineRound
  PropsSineRound PotAnyModel SpecPotAny PotAny PropsRadAny PropsPotAny SunAnyModel SpecSunAny SunAny PropsSunAny PropsStation5 SunLocModel SpecSunLoc PropsSunLoc
  ShiftModel SpecShift.
Import ListNotations.
Open Scope Z_scope.

(** the formulas are those of the other properties *)
Theorem C130_same (s : series xr) lon lat tz : shift_any xpi xsin xcos xtan xacos nanmean s lon lat tz = get_shift_by_data s lon lat tz.
Proof.
  unfold shift_any, get_shift_by_data.
  assert (F : forall l b, first_max_any l b = first_max l b).
  { induction l as [|[t v] l IH]; intro b; [reflexivity|]. cbn [first_max_any first_max]. rewrite !IH. reflexivity. }
  assert (O : forall ds, flat_map (fun d => match first_max_any (rows_on d s) None with Some (t, _) => [(midnight d, (n_ofZ (hour_of t) : xr))] | None => [] end) ds
            = flat_map (fun d => match first_max (rows_on d s) None with Some (t, _) => [(midnight d, (n_ofZ (hour_of t) : xr))] | None => [] end) ds)
    by (intro ds; apply flat_map_ext; intro d; rewrite F; reflexivity).
  rewrite O. set (obs := flat_map _ _). rewrite <- (C126_same (index (resample us_day nanmean s)) lon lat tz), !map_map. reflexivity.
Qed.
Print Assumptions C130_same.

Section Table.
  Context {T : Type} {N : Num T}.
  Variable pi : T.
  Variables sinf cosf tanf acosf : T -> T.
  Variable meanf : list T -> T.
  Definition day_difference (f : Z -> T) d0 lon lat tz (i : nat) : T :=
    match first_max_any (map (fun h => (DaysProofs.stamp (d0 + Z.of_nat i) h, f (DaysProofs.stamp (d0 + Z.of_nat i) h))) (seq 0 24)) None with
    | Some (t, _) => (n_ofZ (hour_of t) - l_noon (sun_any pi sinf cosf tanf acosf (doy_of_day (d0 + Z.of_nat i)) lon lat tz))%num
    | None => n_nan
    end.
  Lemma table_any (f : Z -> T) d0 n lon lat tz :
    let delta := daily d0 (map (day_difference f d0 lon lat tz) (seq 0 n)) in
    shift_any pi sinf cosf tanf acosf meanf (map (fun t => (t, f t)) (hours_index d0 n)) lon lat tz
    = map (fun m => (m, meanf (map snd (filter (fun p => month_of (fst p) =? m) delta))))
        (filter (fun m => existsb (fun p => month_of (fst p) =? m) delta) (map Z.of_nat (seq 1 12))).
  Proof.
    cbv zeta. set (s := map (fun t => (t, f t)) (hours_index d0 n)). unfold shift_any. cbv zeta.
    set (obs := flat_map _ (uniq _)). set (st := sun_times_any _ _ _ _ _ _ _ _ _).
    assert (E : map (fun p : Z * sun_line T => (fst p, match lookup (fst p) obs with Some h => (h - l_noon (snd p))%num | None => n_nan end)) st
                = daily d0 (map (day_difference f d0 lon lat tz) (seq 0 n))).
    { unfold st. unfold index at 1. rewrite (resample_hours _ d0 n) by (unfold s; rewrite map_map; apply map_id). rewrite map_map. cbn [fst].
      unfold sun_times_any. rewrite !map_map. cbn [fst snd]. rewrite daily_seq. apply map_ext_in. intros i Hi. apply in_seq in Hi. f_equal.
      rewrite day_start_date.
      assert (EO : lookup ((d0 + Z.of_nat i) * us_day) obs = match first_max_any (rows_on (d0 + Z.of_nat i) s) None with Some (t, _) => Some (n_ofZ (hour_of t)) | None => None end).
      { unfold obs. set (G := fun d => match first_max_any (rows_on d s) None with Some (t, _) => Some ((n_ofZ (hour_of t)) : T) | None => None end).
        transitivity (lookup (midnight (d0 + Z.of_nat i)) (flat_map (fun d' => match G d' with Some x => [(midnight d', x)] | None => [] end) (uniq (map date_of (index s))))).
        - unfold midnight at 1. f_equal. apply flat_map_ext. intro a. unfold G. destruct (first_max_any (rows_on a s) None) as [[t v]|]; reflexivity.
        - rewrite lookup_flat. assert (M : mem (d0 + Z.of_nat i) (uniq (map date_of (index s))) = true).
          { apply mem_In, uniq_In. replace (index s) with (hours_index d0 n) by (unfold s, index; rewrite map_map; symmetry; apply map_id).
            apply in_map_iff. exists (DaysProofs.stamp (d0 + Z.of_nat i) 0). split; [apply stamp_date; lia|]. apply in_hours. exists i, 0%nat. repeat split; lia. }
          rewrite M. reflexivity. }
      rewrite EO. unfold s. rewrite rows_on_hours by lia. unfold day_difference. clear EO.
      match goal with |- context [first_max_any ?l None] => destruct (first_max_any l None) as [[t v]|] end; reflexivity. }
    rewrite E. reflexivity.
  Qed.
  Lemma entry_any (f : Z -> T) d0 n lon lat tz m :
    lookup m (shift_any pi sinf cosf tanf acosf meanf (map (fun t => (t, f t)) (hours_index d0 n)) lon lat tz)
    = if existsb (fun i => month_of_day (d0 + Z.of_nat i) =? m) (seq 0 n)
      then Some (meanf (map (day_difference f d0 lon lat tz) (filter (fun i => month_of_day (d0 + Z.of_nat i) =? m) (seq 0 n)))) else None.
  Proof.
    rewrite table_any. cbv zeta. set (delta := daily d0 _).
    assert (EX : existsb (fun p => month_of (fst p) =? m) delta = existsb (fun i => month_of_day (d0 + Z.of_nat i) =? m) (seq 0 n)).
    { unfold delta. rewrite daily_seq. generalize (seq 0 n). induction l as [|i l IH]; [reflexivity|]. cbn [map existsb fst]. unfold month_of at 1. rewrite day_start_date, IH. reflexivity. }
    rewrite <- EX. destruct (existsb (fun p => month_of (fst p) =? m) delta) eqn:E.
    - rewrite (lookup_map_id (fun m => meanf (map snd (filter (fun p => month_of (fst p) =? m) delta)))).
      + f_equal. f_equal. unfold delta. rewrite daily_seq. generalize (seq 0 n). induction l as [|i l IH]; [reflexivity|]. cbn [map filter fst]. unfold month_of at 1. rewrite day_start_date.
        destruct (month_of_day (d0 + Z.of_nat i) =? m); cbn [map snd]; [f_equal|]; exact IH.
      + apply filter_In. split; [|exact E].
        apply existsb_exists in E as ([t v] & _ & Q). apply Z.eqb_eq in Q. cbn [fst] in Q. pose proof (month_range (date_of t)) as R. unfold month_of in Q. rewrite Q in R.
        apply in_map_iff. exists (Z.to_nat m). split; [lia|]. apply in_seq. lia.
    - apply lookup_none. intro HI. apply in_map_iff in HI as ([k v] & Q & HI). cbn [fst] in Q. subst k. apply in_map_iff in HI as (m' & Q & HI). injection Q as -> _.
      apply filter_In in HI as [_ HI]. congruence.
  Qed.
End Table.

(** the maximum of a day of doubles is that of the numbers they stand for *)
Lemma first_max_reading (s : series float) : forall best, Forall (fun p => present_or_missing (snd p)) s ->
  match best with Some (_, b) => PrimFloat.is_finite b = true | None => True end ->
  first_max (map (fun p => (fst p, reading (snd p))) s) (option_map (fun p => (fst p, reading (snd p))) best)
  = option_map (fun p => (fst p, reading (snd p))) (first_max_any s best).
Proof.
  induction s as [|[t v] s IH]; intros best F B; [reflexivity|]. inversion F as [|? ? V F']; subst. cbn [snd] in V. cbn [map first_max first_max_any fst snd].
  assert (NF : forall x, PrimFloat.is_finite x = true -> PrimFloat.is_nan x = false).
  { intros x H. unfold PrimFloat.is_finite in H. destruct (PrimFloat.is_nan x); [discriminate|reflexivity]. }
  destruct V as [V|V].
  - change (n_isnan v) with (PrimFloat.is_nan v). unfold reading at 1. rewrite V. cbn [n_isnan Num_xr xisnan]. apply IH; assumption.
  - pose proof (NF v V) as V'. change (n_isnan v) with (PrimFloat.is_nan v). unfold reading at 1. rewrite V'. cbn [n_isnan Num_xr xisnan]. destruct best as [[u b]|].
    + cbn [option_map fst snd]. assert (RB : reading b = Fin (fval b)) by (unfold reading; rewrite (NF b B); reflexivity). assert (RV : reading v = Fin (fval v)) by (unfold reading; rewrite V'; reflexivity).
      change (b <? v)%num with (b <? v)%float. rewrite RB at 1. rewrite RV. cbn [n_ltb Num_xr xltb].
      destruct (fltb_correct b v (proj2 (ffin_spec _) B) (proj2 (ffin_spec _) V)) as [L|L], (Rltb_spec (fval b) (fval v)) as [Q|Q]; try contradiction.
      * rewrite <- RV. apply (IH (Some (t, v)) F'). exact V.
      * apply (IH (Some (u, b)) F'). exact B.
    + assert (RV : reading v = Fin (fval v)) by (unfold reading; rewrite V'; reflexivity). apply (IH (Some (t, v)) F'). exact V.
Qed.

Open Scope R_scope.
Lemma valid_cons x l : valid_numbers (x :: l) = if PrimFloat.is_nan x then valid_numbers l else fval x :: valid_numbers l.
Proof. unfold valid_numbers. cbn [filter]. destruct (PrimFloat.is_nan x); reflexivity. Qed.
Lemma finite_not_nan x : PrimFloat.is_finite x = true -> PrimFloat.is_nan x = false.
Proof. unfold PrimFloat.is_finite. destruct (PrimFloat.is_nan x); [discriminate|reflexivity]. Qed.
Lemma collected (g : nat -> float) (p : nat -> bool) (hmax : nat -> option nat) (r : nat -> nat -> R) l :
  (forall i, In i l -> match hmax i with Some h => within (2 / 10 ^ 12) (g i) (r i h) /\ Rabs (fval (g i)) <= 1000 | None => PrimFloat.is_nan (g i) = true end) ->
  let xs := map g (filter p l) in
  (forall x, In x xs -> present_or_missing x /\ (PrimFloat.is_finite x = true -> Rabs (fval x) <= 1000)) /\
  Forall2 (fun x r => Rabs (x - r) <= 2 / 10 ^ 12) (valid_numbers xs)
    (flat_map (fun i => if p i then match hmax i with Some h => [r i h] | None => [] end else []) l).
Proof.
  intro H. cbv zeta. induction l as [|i l IH]; [split; [intros x []|constructor]|].
  specialize (IH ltac:(intros j Hj; apply H; right; exact Hj)). pose proof (H i (or_introl eq_refl)) as D.
  cbn [filter flat_map]. destruct (p i); [|exact IH]. cbn [map]. generalize dependent (g i). intros x D.
  destruct IH as [IH1 IH2]. rewrite valid_cons. destruct (hmax i) as [h|].
  - destruct D as [[F W] B]. rewrite (finite_not_nan x F).
    split; [intros y [<-|Hy]; [split; [right; exact F|intros _; exact B]|apply IH1; exact Hy]|]. cbn [app]. constructor; [exact W|exact IH2].
  - rewrite D. cbn [app]. split; [intros y [<-|Hy]; [split; [left; exact D|]|apply IH1; exact Hy]|exact IH2].
    intro F. apply finite_not_nan in F. congruence.
Qed.
Section Doubles.
  Variables sinf cosf tanf acosf : float -> float.
  Hypothesis GS : good_sine sinf.
  Hypothesis GC : good_cosine cosf.
  Hypothesis GT : good_tangent tanf.
  Hypothesis GA : good_arccosine acosf.

  (** the difference of one day *)
  Lemma difference_near (f : Z -> float) d0 lon lat tz i (top : option nat) : degrees lon -> degrees lat -> zone tz -> (forall t, present_or_missing (f t)) ->
    match top with
    | Some h => first_max_hour (day_values (fun t => reading (f t)) (d0 + Z.of_nat i)) h
    | None => forall h, (h < 24)%nat -> day_values (fun t => reading (f t)) (d0 + Z.of_nat i) h = NaN
    end ->
    let x := day_difference np_pi sinf cosf tanf acosf f d0 lon lat tz i in
    match top with
    | Some h => within (2 / 10 ^ 12) x (INR h - noon_R (doy_of_day (d0 + Z.of_nat i)) (fval lon) (fval tz)) /\ Rabs (fval x) <= 1000
    | None => PrimFloat.is_nan x = true
    end.
  Proof.
    intros HL HA HZ PM HM x. unfold x, day_difference. set (D := (d0 + Z.of_nat i)%Z) in *.
    set (s := map (fun h => (DaysProofs.stamp D h, f (DaysProofs.stamp D h))) (seq 0 24)).
    assert (FR := first_max_reading s None). cbn [option_map] in FR.
    assert (PS : Forall (fun p => present_or_missing (snd p)) s) by (apply Forall_forall; intros p Hp; apply in_map_iff in Hp as (h & <- & _); apply PM).
    specialize (FR PS I).
    assert (ES : map (fun p => (fst p, reading (snd p))) s = map (fun k => (DaysProofs.stamp D k, day_values (fun t => reading (f t)) D k)) (seq 0 24)) by (unfold s; rewrite map_map; reflexivity).
    rewrite ES in FR. destruct top as [h|].
    - destruct (first_max_day (day_values (fun t => reading (f t)) D) D h) as (v & EV).
      + intros k _. unfold day_values, reading. destruct (PrimFloat.is_nan _); exact I.
      + exact HM.
      + rewrite EV in FR. destruct (first_max_any s None) as [[t w]|]; [|discriminate]. cbn [option_map fst snd] in FR. injection FR as E _.
        destruct HM as [Hh _]. rewrite <- E, stamp_hour by exact Hh.
        set (doy := doy_of_day D). assert (HD : (1 <= doy <= 366)%Z) by (unfold doy; rewrite <- (day_start_date D); apply doy_range).
        assert (IN : In ((D * us_day)%Z, sun_any np_pi sinf cosf tanf acosf doy lon lat tz) (sun_times_any np_pi sinf cosf tanf acosf [(D * us_day)%Z] lon lat tz)).
        { left. unfold doy. rewrite day_start_date. reflexivity. }
        destruct (C126_range sinf cosf tanf acosf [(D * us_day)%Z] lon lat tz GS GC GT GA HL HA HZ) as [_ RG]. destruct (RG _ _ IN) as ([FN WN] & _).
        rewrite day_start_date in WN. fold doy in WN. set (y := l_noon _) in *.
        destruct (noon_near sinf cosf GS GC doy lon tz HD HL HZ) as [_ BN].
        assert (A1 : apb (n_ofZ (Z.of_nat h)) (INR h) 0 24) by (rewrite INR_IZR_INZ; apply b_Z; [lia|apply IZR_le; lia]).
        assert (A2 : apb y (noon_R doy (fval lon) (fval tz)) (1 / 10 ^ 12) 200) by (split; [split; [apply ffin_spec; exact FN|exact WN]|exact BN]).
        destruct (b_sub _ _ _ _ _ _ _ _ (2 / 10 ^ 12) 224 A1 A2 ltac:(lra) ltac:(lra) ltac:(lra)) as [[FX WX] BX].
        split; [split; [apply ffin_spec; exact FX|exact WX]|].
        apply Flocq.Core.Raux.Rabs_le_inv in WX. apply Flocq.Core.Raux.Rabs_le_inv in BX. apply Rabs_le. lra.
    - rewrite first_max_none in FR; [destruct (first_max_any s None) as [[t w]|]; [discriminate|vm_compute; reflexivity]|].
      apply Forall_forall. intros p Hp. apply in_map_iff in Hp as (h & <- & Hh). apply in_seq in Hh. apply HM. lia.
  Qed.

  Lemma numbers_near (f : Z -> float) d0 lon lat tz hmax m l : degrees lon -> degrees lat -> zone tz -> (forall t, present_or_missing (f t)) ->
    (forall i, In i l -> match hmax i with
       | Some h => first_max_hour (day_values (fun t => reading (f t)) (d0 + Z.of_nat i)) h
       | None => forall h, (h < 24)%nat -> day_values (fun t => reading (f t)) (d0 + Z.of_nat i) h = NaN end) ->
    let xs := map (day_difference np_pi sinf cosf tanf acosf f d0 lon lat tz) (filter (fun i => (month_of_day (d0 + Z.of_nat i) =? m)%Z) l) in
    (forall x, In x xs -> present_or_missing x /\ (PrimFloat.is_finite x = true -> Rabs (fval x) <= 1000)) /\
    Forall2 (fun x r => Rabs (x - r) <= 2 / 10 ^ 12) (valid_numbers xs)
      (flat_map (fun i => if (month_of_day (d0 + Z.of_nat i) =? m)%Z
                     then match hmax i with Some h => [INR h - noon_R (doy_of_day (d0 + Z.of_nat i)) (fval lon) (fval tz)] | None => [] end
                     else []) l).
  Proof.
    intros HL HA HZ PM HM.
    exact (collected (day_difference np_pi sinf cosf tanf acosf f d0 lon lat tz) (fun i => (month_of_day (d0 + Z.of_nat i) =? m)%Z) hmax
             (fun i h => INR h - noon_R (doy_of_day (d0 + Z.of_nat i)) (fval lon) (fval tz)) l
             (fun i Hi => difference_near f d0 lon lat tz i (hmax i) HL HA HZ PM (HM i Hi))).
  Qed.
End Doubles.

Lemma flat_map_nil {A B} (g : A -> list B) l : (forall a, In a l -> g a = []) -> flat_map g l = [].
Proof. induction l as [|a l IH]; intro H; [reflexivity|]. cbn [flat_map]. rewrite (H a (or_introl eq_refl)), IH; [reflexivity|]. intros b Hb. apply H. right. exact Hb. Qed.
Lemma Rsum_close e a b : Forall2 (fun x r => Rabs (x - r) <= e) a b -> Rabs (Rsum a - Rsum b) <= INR (List.length b) * e.
Proof.
  induction 1 as [|x r a b H F IH]; [cbn; rewrite Rminus_0_r, Rabs_R0; lra|].
  change (List.length (r :: b)) with (S (List.length b)). rewrite S_INR. unfold Rsum in *. cbn [fold_right].
  set (p := fold_right Rplus 0 a) in *. set (q := fold_right Rplus 0 b) in *.
  replace (x + p - (r + q)) with ((x - r) + (p - q)) by ring. eapply Rle_trans; [apply Rabs_triang|]. lra.
Qed.
Lemma Rmean_close e a b : Forall2 (fun x r => Rabs (x - r) <= e) a b -> b <> [] -> Rabs (Rmean a - Rmean b) <= e.
Proof.
  intros F NE. pose proof (Rsum_close e a b F) as S. unfold Rmean.
  assert (EL : List.length a = List.length b) by (clear -F; induction F; cbn; congruence). rewrite EL.
  assert (P : 0 < INR (List.length b)) by (apply lt_0_INR; destruct b; [contradiction|cbn; lia]).
  replace (Rsum a / INR (List.length b) - Rsum b / INR (List.length b)) with ((Rsum a - Rsum b) / INR (List.length b)) by (field; lra).
  unfold Rdiv. rewrite Rabs_mult, (Rabs_pos_eq (/ _)) by (left; apply Rinv_0_lt_compat; exact P).
  apply Rmult_le_reg_r with (INR (List.length b)); [exact P|]. rewrite Rmult_assoc, Rinv_l, Rmult_1_r by lra. lra.
Qed.

(** the entry of a month: missing from the table if no day falls into the month, NaN if none of its days has a value, else within 2e-9 hours of the mean of the exact differences *)
Theorem C130_shift sinf cosf tanf acosf meanf (f : Z -> float) d0 n lon lat tz hmax m :
  good_sine sinf -> good_cosine cosf -> good_tangent tanf -> good_arccosine acosf -> good_month_mean meanf -> degrees lon -> degrees lat -> zone tz ->
  (forall t, present_or_missing (f t)) ->
  (forall i, (i < n)%nat -> match hmax i with
     | Some h => first_max_hour (day_values (fun t => reading (f t)) (d0 + Z.of_nat i)) h
     | None => forall h, (h < 24)%nat -> day_values (fun t => reading (f t)) (d0 + Z.of_nat i) h = NaN end) ->
  let diffs := month_differences (fval lon) (fval tz) d0 n hmax m in
  match entry_of m (shift_any np_pi sinf cosf tanf acosf meanf (map (fun t => (t, f t)) (hours_index d0 n)) lon lat tz) with
  | None => forall i, (i < n)%nat -> month_of_day (d0 + Z.of_nat i) <> m
  | Some x => (exists i, (i < n)%nat /\ month_of_day (d0 + Z.of_nat i) = m) /\
              (diffs = [] -> PrimFloat.is_nan x = true) /\ (diffs <> [] -> within (2 / 10 ^ 9) x (Rmean diffs))
  end.
Proof.
  intros GS GC GT GA GM HL HA HZ PM HM diffs. rewrite entry_lookup, entry_any.
  destruct (existsb (fun i => (month_of_day (d0 + Z.of_nat i) =? m)%Z) (seq 0 n)) eqn:E.
  - split; [apply existsb_exists in E as (i & Hi & Q); apply in_seq in Hi; apply Z.eqb_eq in Q; exists i; split; [lia|exact Q]|].
    destruct (numbers_near sinf cosf tanf acosf GS GC GT GA f d0 lon lat tz hmax m (seq 0 n) HL HA HZ PM ltac:(intros i Hi; apply in_seq in Hi; apply HM; lia)) as [B F].
    set (xs := map _ (filter _ (seq 0 n))) in *. fold (month_differences (fval lon) (fval tz) d0 n hmax m) in F. fold diffs in F.
    destruct (GM xs B) as [G0 G1]. split.
    + intro D. apply G0. rewrite D in F. inversion F. reflexivity.
    + intro D. assert (NV : valid_numbers xs <> []) by (intro V; rewrite V in F; inversion F; congruence). destruct (G1 NV) as [FX WX]. split; [exact FX|].
      pose proof (Rmean_close _ _ _ F D) as M. apply Flocq.Core.Raux.Rabs_le_inv in M. apply Flocq.Core.Raux.Rabs_le_inv in WX. apply Rabs_le. lra.
  - intros i Hi Q. assert (X : existsb (fun i => (month_of_day (d0 + Z.of_nat i) =? m)%Z) (seq 0 n) = true) by (apply existsb_exists; exists i; split; [apply in_seq; lia|apply Z.eqb_eq; exact Q]). congruence.
Qed.
Print Assumptions C130_shift.

(** the two together: with the shifts of a record the maximum falls on the hour by the mean difference of the month *)
Theorem C130_then_hours roundf intf sinf cosf tanf acosf meanf (f : Z -> float) c0 k hmax e (d : dframe float) use_mean modn d0 n lon lat tz :
  good_round roundf -> good_int intf -> good_sine sinf -> good_cosine cosf -> good_tangent tanf -> good_arccosine acosf -> good_month_mean meanf ->
  degrees lon -> degrees lat -> Rabs (fval lat) <= 89 -> zone tz -> f_index d = daily_index d0 n ->
  (forall t, present_or_missing (f t)) ->
  (forall i, (i < k)%nat -> match hmax i with
     | Some h => first_max_hour (day_values (fun t => reading (f t)) (c0 + Z.of_nat i)) h
     | None => forall h, (h < 24)%nat -> day_values (fun t => reading (f t)) (c0 + Z.of_nat i) h = NaN end) ->
  let mean_difference := fun day => Rmean (month_differences (fval lon) (fval tz) c0 k hmax (month_of_day day)) in
  (forall i, (i < n)%nat -> let day := (d0 + Z.of_nat i)%Z in
     ordinary_day (fval lon) (fval lat) (fval tz) day /\ month_differences (fval lon) (fval tz) c0 k hmax (month_of_day day) <> [] /\
     Rabs (mean_difference day) <= 7.9 /\ noon_R (doy_of_day day) (fval lon) (fval tz) + mean_difference day <= 22.9) ->
  let shifts := shift_any np_pi sinf cosf tanf acosf meanf (map (fun t => (t, f t)) (hours_index c0 k)) lon lat tz in
  exists mins maxs, List.length mins = n /\ List.length maxs = n /\
    temp_sun roundf intf cosf np_pi e d use_mean modn (Some shifts) (sun_times_any np_pi sinf cosf tanf acosf (f_index d) lon lat tz)
    = (let* _ := hourly_index e (f_index d) in temp_sine cosf np_pi e d use_mean modn mins maxs) /\
    forall i mn mx, nth_error mins i = Some mn -> nth_error maxs i = Some mx ->
      let day := (d0 + Z.of_nat i)%Z in
      full_hour (3 / 10 ^ 8) mn (rise_time (fval lon) (fval lat) (fval tz) day) /\
      top_hour (3 / 10 ^ 8) (noon_R (doy_of_day day) (fval lon) (fval tz)) (Some (mean_difference day)) mn mx /\
      (0 <= mn <= mx)%Z /\ (mx < 24)%Z.
Proof.
  intros GR GI GS GC GT GA GM HL HA BA HZ FI PM HM mean_difference OD shifts.
  assert (SH : forall i, (i < n)%nat -> exists s, lookup (month_of_day (d0 + Z.of_nat i)) shifts = Some s /\ within (2 / 10 ^ 9) s (mean_difference (d0 + Z.of_nat i)%Z)).
  { intros i Hi. destruct (OD i Hi) as (_ & ND & _).
    pose proof (C130_shift sinf cosf tanf acosf meanf f c0 k lon lat tz hmax (month_of_day (d0 + Z.of_nat i)) GS GC GT GA GM HL HA HZ PM HM) as S. cbv zeta in S. fold shifts in S. rewrite entry_lookup in S.
    destruct (lookup (month_of_day (d0 + Z.of_nat i)) shifts) as [s|]; [exists s; split; [reflexivity|apply S; exact ND]|].
    exfalso. apply ND. unfold month_differences. apply flat_map_nil. intros j Hj. apply in_seq in Hj. destruct (Z.eqb_spec (month_of_day (c0 + Z.of_nat j)) (month_of_day (d0 + Z.of_nat i))) as [Q|Q]; [|reflexivity].
    exfalso. apply (S j); [lia|exact Q]. }
  destruct (C129_hours roundf intf sinf cosf tanf acosf e d use_mean modn d0 n lon lat tz (Some shifts) GR GI GS GC GT GA HL HA BA HZ FI) as (mins & maxs & L1 & L2 & E & H).
  - intros i Hi. apply (OD i Hi).
  - intros i Hi. destruct (SH i Hi) as (s & S1 & S2 & S3). destruct (OD i Hi) as (_ & _ & B1 & B2). exists s. split; [exact S1|]. split; [exact S2|].
    apply Flocq.Core.Raux.Rabs_le_inv in B1. apply Flocq.Core.Raux.Rabs_le_inv in S3. split; [apply Rabs_le; lra|lra].
  - exists mins, maxs. split; [exact L1|]. split; [exact L2|]. split; [exact E|]. intros i mn mx H1 H2 day.
    assert (Hi : (i < n)%nat) by (rewrite <- L1; apply nth_error_Some; congruence).
    destruct (H i mn mx H1 H2) as (A & B & C & D & _). destruct (SH i Hi) as (s & S1 & S2 & S3). fold day in S1, S3, A, B.
    split; [apply (full_weaken _ _ _ _ A); lra|]. split; [|split; assumption].
    unfold shift_on in B. rewrite S1 in B. destruct B as (q & B1 & B2). exists q. apply Flocq.Core.Raux.Rabs_le_inv in S3. split.
    + unfold full_hour in *. apply Flocq.Core.Raux.Rabs_le_inv in B1. apply Rabs_le. lra.
    + destruct B2 as [B2|[B2 B3]]; [left; exact B2|right; split; [exact B2|apply (full_weaken _ _ _ _ B3); lra]].
Qed.
Print Assumptions C130_then_hours.

(** such a mean exists: the exact one, rounded *)
Definition rounded_mean (l : list float) : float := match valid_numbers l with [] => PrimFloat.nan | v => float_of_R (Rmean v) end.
Lemma Rmean_bound b v : v <> [] -> (forall x, In x v -> Rabs x <= b) -> Rabs (Rmean v) <= b.
Proof.
  intros NE H. assert (P : 0 < INR (List.length v)) by (apply lt_0_INR; destruct v; [contradiction|cbn; lia]).
  assert (S : Rabs (Rsum v) <= INR (List.length v) * b).
  { clear NE P. induction v as [|x v IH]; [cbn; rewrite Rabs_R0; lra|]. change (List.length (x :: v)) with (S (List.length v)). rewrite S_INR. unfold Rsum in *. cbn [fold_right].
    specialize (IH ltac:(intros y Hy; apply H; right; exact Hy)). pose proof (H x (or_introl eq_refl)). eapply Rle_trans; [apply Rabs_triang|]. lra. }
  unfold Rmean, Rdiv. rewrite Rabs_mult, (Rabs_pos_eq (/ _)) by (left; apply Rinv_0_lt_compat; exact P).
  apply Rmult_le_reg_r with (INR (List.length v)); [exact P|]. rewrite Rmult_assoc, Rinv_l, Rmult_1_r by lra. lra.
Qed.
Example C130_mean_exists : good_month_mean rounded_mean.
Proof.
  intros l H. unfold rounded_mean. split; [intros ->; reflexivity|]. intro NE.
  assert (B : Rabs (Rmean (valid_numbers l)) <= 1000).
  { apply Rmean_bound; [exact NE|]. intros r Hr. unfold valid_numbers in Hr. apply in_map_iff in Hr as (x & <- & Hx). apply filter_In in Hx as [Hx NX]. destruct (H x Hx) as [[N|F] Q]; [rewrite N in NX; discriminate|apply Q; exact F]. }
  assert (E : match valid_numbers l with [] => PrimFloat.nan | v => float_of_R (Rmean v) end = float_of_R (Rmean (valid_numbers l))) by (destruct (valid_numbers l); [contradiction|reflexivity]).
  rewrite E. set (r := Rmean (valid_numbers l)) in *. assert (V : fval 1024%float = 1024) by (unfold fval; vm_compute; lra).
  destruct (float_of_R_any r 1024%float) as [F E2]; [rewrite V; lra|]. split; [apply ffin_spec; exact F|]. rewrite E2.
  pose proof (rnd_err r) as R. pose proof u64_tiny. pose proof eta_tiny. pose proof (Rabs_pos r). assert (u64 * Rabs r <= 12 / 10 ^ 17 * 1000) by (apply Rmult_le_compat; lra || exact (Rlt_le _ _ u64_pos)). lra.
Qed.
(** a record of one day with its maximum at 14 o'clock, at 45 degrees north: the shift is about two hours *)
Definition afternoon (t : Z) : float := if (hour_of t =? 14)%Z then 20%float else 10%float.
Example C130_met : let hmax := fun _ : nat => Some 14%nat in let m := month_differences 15 1 0 1 hmax (month_of_day 0) in
  (forall t, present_or_missing (afternoon t)) /\ first_max_hour (day_values (fun t => reading (afternoon t)) (0 + Z.of_nat 0)) 14 /\
  ordinary_day 15 45 1 0 /\ m <> [] /\ Rabs (Rmean m) <= 7.9 /\ noon_R (doy_of_day 0) 15 1 + Rmean m <= 22.9.
Proof.
  cbv zeta.
  assert (R1 : reading 20%float = Fin 20) by (unfold reading; change (PrimFloat.is_nan 20%float) with false; cbv iota; f_equal; unfold fval; vm_compute; lra).
  assert (R2 : reading 10%float = Fin 10) by (unfold reading; change (PrimFloat.is_nan 10%float) with false; cbv iota; f_equal; unfold fval; vm_compute; lra).
  assert (ER : forall t, reading (afternoon t) = if (hour_of t =? 14)%Z then Fin 20 else Fin 10) by (intro t; unfold afternoon; destruct (hour_of t =? 14)%Z; assumption).
  split; [intro t; right; unfold afternoon; destruct (hour_of t =? 14)%Z; reflexivity|]. split.
  { split; [lia|]. exists 20%R. unfold day_values. split; [rewrite ER; reflexivity|]. split.
    - intros k w Hk E. rewrite ER in E. destruct (hour_of _ =? 14)%Z; injection E as <-; lra.
    - intros k w Hk E. rewrite ER in E. pose proof (stamp_hour 0 k ltac:(lia)) as SH. unfold DaysProofs.stamp in SH. change (0 + Z.of_nat 0)%Z with 0%Z in E. rewrite SH in E.
      destruct (Z.eqb_spec (Z.of_nat k) 14); [lia|]. injection E as <-. lra. }
  destruct (C129_met 0) as [O _]. split; [exact O|].
  assert (HD : (1 <= doy_of_day 0 <= 366)%Z) by (vm_compute; split; discriminate).
  destruct C126_functions_exist as (GS & GC & _). destruct (eq_near rounded_sin rounded_cosine GS GC _ HD) as [_ E]. apply Flocq.Core.Raux.Rabs_le_inv in E.
  assert (N : 11.6 <= noon_R (doy_of_day 0) 15 1 <= 12.4) by (unfold noon_R; lra).
  assert (EM : month_differences 15 1 0 1 (fun _ => Some 14%nat) (month_of_day 0) = [INR 14 - noon_R (doy_of_day 0) 15 1]) by reflexivity.
  rewrite EM. assert (I14 : INR 14 = 14) by (rewrite INR_IZR_INZ; reflexivity). rewrite I14. unfold Rmean, Rsum. cbn [fold_right List.length INR].
  split; [discriminate|]. replace ((14 - noon_R (doy_of_day 0) 15 1 + 0) / 1) with (14 - noon_R (doy_of_day 0) 15 1) by field. split; [apply Rabs_le; lra|lra].
Qed.
