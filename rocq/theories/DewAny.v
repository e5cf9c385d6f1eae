(** Rounding of the dew point's daily course. *)
From Coq Require Import String ZArith List Bool Lia Reals Lra Floats.
From Flocq Require Import Core BinarySingleNaN PrimFloat.
From Verif Require Import Py Num Cal Series UtilModel UtilModel2 Frame HumModel SpecBase SpecUtil TimeProofs EqualProofs IndexProofs DaysProofs TempProofs TempCourse
  HumProofs F64 CascadeFloat CascadeRound FiveRound AggRound CourseRound SpecSineRound ErrCalc SineRound SpecHumRound HumRound SpecHumMean HumMean
  SpecPotAny PotAny SunAny SpecVapAny VapAnyModel VapAny DewAnyModel SpecDewAny.
Import ListNotations.
Open Scope Z_scope.
Notation float := PrimFloat.float (only parsing).

(** ** the series *)
Section Series.
  Context {T : Type} {N : Num T}.
  Lemma next_function (g : Z -> T) d0 n : n <> O ->
    let w := map g (hours_index d0 n) in
    skipn 24 w ++ skipn (List.length w - 24) w
    = map (fun t => if (d0 + Z.of_nat n - 1) * us_day <=? t then g t else g (t + us_day)) (hours_index d0 n).
  Proof.
    intros NE w. assert (LW : List.length w = (n * 24)%nat) by (unfold w; rewrite map_length; apply hours_length).
    assert (EN : forall i h, (i < n)%nat -> (h < 24)%nat -> nth (i * 24 + h) (hours_index d0 n) 0 = DaysProofs.stamp (d0 + Z.of_nat i) h).
    { intros i h Hi Hh. unfold hours_index. rewrite grid_nth by lia. unfold DaysProofs.stamp, us_day, us_hour. lia. }
    assert (NW : forall i h, (i < n)%nat -> (h < 24)%nat -> nth (i * 24 + h) w (g 0) = g (DaysProofs.stamp (d0 + Z.of_nat i) h)).
    { intros i h Hi Hh. unfold w. rewrite map_nth, EN by assumption. reflexivity. }
    assert (NS : forall k j (l : list T), nth j (skipn k l) (g 0) = nth (k + j) l (g 0)).
    { clear. intros k. induction k as [|k IH]; intros j l; [reflexivity|]. destruct l as [|x l]; [destruct j; reflexivity|]. apply IH. }
    set (f := fun t => if (d0 + Z.of_nat n - 1) * us_day <=? t then g t else g (t + us_day)).
    apply nth_ext with (d := g 0) (d' := f 0).
    - rewrite app_length, !skipn_length, map_length, hours_length, LW. lia.
    - intros j Hj. rewrite app_length, !skipn_length, LW in Hj.
      set (i := (j / 24)%nat). set (h := (j mod 24)%nat).
      assert (EJ : j = (i * 24 + h)%nat) by (unfold i, h; pose proof (Nat.div_mod j 24 ltac:(lia)); lia).
      assert (Hh : (h < 24)%nat) by (apply Nat.mod_upper_bound; lia).
      assert (Hi : (i < n)%nat) by (apply Nat.div_lt_upper_bound; lia). clearbody i h.
      rewrite map_nth, EJ, EN by assumption. unfold f. destruct (Z.leb_spec ((d0 + Z.of_nat n - 1) * us_day) (DaysProofs.stamp (d0 + Z.of_nat i) h)) as [Q|Q].
      + assert (EI : (S i = n)%nat) by (unfold DaysProofs.stamp, us_day, us_hour in Q; lia).
        rewrite app_nth2 by (rewrite skipn_length; lia). rewrite skipn_length, NS, LW. replace (n * 24 - 24 + (i * 24 + h - (n * 24 - 24)))%nat with (i * 24 + h)%nat by lia. apply NW; assumption.
      + assert (EI : (S i < n)%nat) by (unfold DaysProofs.stamp, us_day, us_hour in Q; lia).
        rewrite app_nth1 by (rewrite skipn_length; lia). rewrite NS. replace (24 + (i * 24 + h))%nat with (S i * 24 + h)%nat by lia. rewrite NW by (assumption || lia).
        f_equal. unfold DaysProofs.stamp, us_day, us_hour. lia.
  Qed.
  Lemma linear_function saturation wave e d0 n tmin tp (a0 a1 : T) kr : n_isnan (n_nan : T) = true -> n <> O -> List.length tmin = n -> map fst tp = hours_index d0 n -> kr = 6 \/ kr = 12 ->
    exists out, dewpoint_humidity saturation wave e true (daily d0 tmin) (Some tp) a0 a1 (Some kr) = Ok out /\ map fst out = hours_index d0 n /\
      forall i m m', nth_error tmin i = Some m -> day_after tmin i = Some m' -> n_isnan (a0 + a1 * m)%num = false -> n_isnan (a0 + a1 * m')%num = false ->
        List.length (values_on (d0 + Z.of_nat i) tp) = 24%nat /\ List.length (values_on (d0 + Z.of_nat i) out) = 24%nat /\
        forall h x, nth_error (values_on (d0 + Z.of_nat i) tp) h = Some x ->
          nth_error (values_on (d0 + Z.of_nat i) out) h
          = Some (n_ofZ 100 * saturation ((a0 + a1 * m) + (n_ofZ (Z.of_nat h) / n_ofZ 24 * ((a0 + a1 * m') - (a0 + a1 * m)) + wave kr (Z.of_nat h))) / saturation x)%num.
  Proof.
    intros NN NE L ET HK. unfold dewpoint_humidity. rewrite <- (daily_map (fun x => (a0 + a1 * x)%num)).
    assert (NEB : map (fun x => (a0 + a1 * x)%num) tmin <> []) by (destruct tmin; [cbn in L; congruence|discriminate]).
    destruct (distribute_function e d0 (map (fun x => (a0 + a1 * x)%num) tmin) NN NEB) as (g & EG & G).
    rewrite map_length, L in EG. rewrite EG. cbn [bind]. set (f := fun t => match lookup t tp with Some v => v | None => n_nan end).
    assert (FT : tp = map (fun t => (t, f t)) (hours_index d0 n)) by exact (hours_function d0 n tp ET). clearbody f. subst tp.
    replace (negb ((kr =? 6) || (kr =? 12))) with false by (destruct HK as [-> | ->]; reflexivity).
    rewrite !map_length, Nat.eqb_refl. cbn [negb]. unfold values, index. rewrite !map_map. cbn [fst snd].
    pose proof (next_function g d0 n NE) as NV. cbv zeta in NV. rewrite map_length in NV. rewrite map_length.
    change (map (fun x => g x) (hours_index d0 n)) with (map g (hours_index d0 n)).
    rewrite NV, !TempCourse.combine_maps. cbn [bind]. rewrite !map_length, Nat.eqb_refl. cbn [negb]. rewrite map_map.
    rewrite TempCourse.combine_maps, map_map. cbn [fst snd].
    pose (F' := fun t : Z => (n_ofZ 100 * saturation (g t + (n_ofZ (hour_of t) / n_ofZ 24 * ((if ((d0 + Z.of_nat n - 1) * us_day <=? t)%Z then g t else g (t + us_day)%Z) - g t) + wave kr (hour_of t))) / saturation (f t))%num).
    exists (map (fun t => (t, F' t)) (hours_index d0 n)). split; [reflexivity|].
    split; [rewrite map_map; apply map_id|]. intros i m m' Hm Hm' NM NM'.
    assert (Hi : (i < n)%nat) by (rewrite <- L; apply nth_error_Some; congruence).
    rewrite (values_on_map_hours f d0 n i Hi).
    rewrite (values_on_map_hours F' d0 n i Hi), !map_length, seq_length. split; [reflexivity|]. split; [reflexivity|].
    intros h x. rewrite !nth_error_map. destruct (nth_error (seq 0 24) h) as [h'|] eqn:EH; [|discriminate]. cbn [option_map].
    assert (Hh : (h < 24)%nat) by (rewrite <- (seq_length 24 0); apply nth_error_Some; congruence).
    assert (h' = h) by (apply nth_error_nth with (d := O) in EH; rewrite seq_nth in EH by exact Hh; lia). subst h'.
    intro X. apply (f_equal (fun o => match o with Some y => y | None => x end)) in X. cbn in X. apply f_equal. unfold F'. rewrite X.
    rewrite (G i h (a0 + a1 * m)%num); [|rewrite nth_error_map, Hm; reflexivity|exact Hh|exact NM]. rewrite stamp_hour by exact Hh.
    assert (Y : (if (d0 + Z.of_nat n - 1) * us_day <=? DaysProofs.stamp (d0 + Z.of_nat i) h then (a0 + a1 * m)%num else g (DaysProofs.stamp (d0 + Z.of_nat i) h + us_day)) = (a0 + a1 * m')%num).
    { unfold day_after in Hm'. rewrite L in Hm'. destruct (Nat.eqb_spec (S i) n) as [EI|EI]; destruct (Z.leb_spec ((d0 + Z.of_nat n - 1) * us_day) (DaysProofs.stamp (d0 + Z.of_nat i) h)) as [Q|Q];
        unfold DaysProofs.stamp, us_day, us_hour in Q; try lia.
      - congruence.
      - replace (DaysProofs.stamp (d0 + Z.of_nat i) h + us_day) with (DaysProofs.stamp (d0 + Z.of_nat (S i)) h) by (unfold DaysProofs.stamp, us_day, us_hour; lia).
        apply (G (S i) h); [rewrite nth_error_map, Hm'; reflexivity|exact Hh|exact NM']. }
    rewrite Y. reflexivity.
  Qed.
End Series.

Open Scope R_scope.
(** ** reals *)
Lemma magnus_lip (b : bool) x y : (if b then 273 else 150) <= x -> (if b then 273 else 150) <= y -> Rabs (magnus b x - magnus b y) <= 3 / 10 * Rabs (x - y).
Proof.
  intros HX HY. unfold magnus. destruct b.
  - assert (E : 17.62 * (x - 273.15) / (243.12 + (x - 273.15)) - 17.62 * (y - 273.15) / (243.12 + (y - 273.15)) = 17.62 * 243.12 * / ((243.12 + (x - 273.15)) * (243.12 + (y - 273.15))) * (x - y)) by (field; lra).
    rewrite E, Rabs_mult. apply Rmult_le_compat_r; [apply Rabs_pos|].
    assert (P : 242 * 242 <= (243.12 + (x - 273.15)) * (243.12 + (y - 273.15))) by (apply Rmult_le_compat; lra).
    rewrite Rabs_pos_eq by (apply Rmult_le_pos; [lra|left; apply Rinv_0_lt_compat; lra]).
    apply Rle_trans with (17.62 * 243.12 * / (242 * 242)); [apply Rmult_le_compat_l; [lra|apply Rinv_le_contravar; lra]|lra].
  - assert (E : 22.46 * (x - 273.15) / (272.62 + (x - 273.15)) - 22.46 * (y - 273.15) / (272.62 + (y - 273.15)) = 22.46 * 272.62 * / ((272.62 + (x - 273.15)) * (272.62 + (y - 273.15))) * (x - y)) by (field; lra).
    rewrite E, Rabs_mult. apply Rmult_le_compat_r; [apply Rabs_pos|].
    assert (P : 149 * 149 <= (272.62 + (x - 273.15)) * (272.62 + (y - 273.15))) by (apply Rmult_le_compat; lra).
    rewrite Rabs_pos_eq by (apply Rmult_le_pos; [lra|left; apply Rinv_0_lt_compat; lra]).
    apply Rle_trans with (22.46 * 272.62 * / (149 * 149)); [apply Rmult_le_compat_l; [lra|apply Rinv_le_contravar; lra]|lra].
Qed.
Lemma magnus_zero b : magnus b 273.15 = 0.
Proof. unfold magnus. destruct b; rewrite Rminus_diag_eq by reflexivity; unfold Rdiv; ring. Qed.
Lemma magnus_phase t T : air t -> 151 <= T <= 399 -> Rabs (fval t - T) <= 1 / 10 ^ 11 ->
  Rabs (magnus (thawing t) (fval t) - magnus (if Rle_dec 273.15 T then true else false) T) <= 7 / 10 ^ 12.
Proof.
  intros A HT E. pose proof (thawing_range t A) as TR. pose proof E as E'. apply Flocq.Core.Raux.Rabs_le_inv in E'.
  assert (Z : forall (b : bool) x, (if b then 273 else 150) <= x -> Rabs (x - 273.15) <= 11 / 10 ^ 12 -> Rabs (magnus b x) <= 34 / 10 ^ 13).
  { intros b x H1 H2. pose proof (magnus_lip b x 273.15 H1 ltac:(destruct b; lra)) as M. rewrite magnus_zero, Rminus_0_r in M. lra. }
  destruct (thawing t), (Rle_dec 273.15 T) as [L|L].
  - pose proof (magnus_lip true (fval t) T ltac:(lra) ltac:(lra)). lra.
  - pose proof (Z true (fval t) ltac:(lra) ltac:(apply Rabs_le; lra)) as Z1. pose proof (Z false T ltac:(lra) ltac:(apply Rabs_le; lra)) as Z2.
    apply Flocq.Core.Raux.Rabs_le_inv in Z1, Z2. apply Rabs_le. lra.
  - pose proof (Z false (fval t) ltac:(lra) ltac:(apply Rabs_le; lra)) as Z1. pose proof (Z true T ltac:(lra) ltac:(apply Rabs_le; lra)) as Z2.
    apply Flocq.Core.Raux.Rabs_le_inv in Z1, Z2. apply Rabs_le. lra.
  - pose proof (magnus_lip false (fval t) T ltac:(lra) ltac:(lra)). lra.
Qed.
Lemma saturation_phase t T : air t -> 151 <= T <= 399 -> Rabs (fval t - T) <= 1 / 10 ^ 11 ->
  Rabs (saturation_R (thawing t) (fval t) - saturation_at T) <= 14 / 10 ^ 12 * saturation_at T.
Proof.
  intros A HT E. pose proof (magnus_phase t T A HT E) as M. unfold saturation_at, saturation_R. set (a := magnus (thawing t) (fval t)) in *. set (b := magnus (if Rle_dec 273.15 T then true else false) T) in *.
  pose proof (exp_near (a - b) ltac:(lra)) as N. pose proof (exp_pos b) as P. assert (X : exp a = exp b * exp (a - b)) by (rewrite <- exp_plus; f_equal; ring).
  rewrite X. replace (6.112 * (exp b * exp (a - b)) - 6.112 * exp b) with (6.112 * exp b * (exp (a - b) - 1)) by ring. rewrite Rabs_mult, (Rabs_pos_eq (6.112 * exp b)) by lra.
  rewrite Rmult_comm. apply Rmult_le_compat_r; lra.
Qed.
Lemma min_ratio q q' d : 0 < q -> 0 <= d <= 1 / 2 -> q * (1 - d) <= q' <= q * (1 + d) -> Rabs (Rmin 100 q' - Rmin 100 q) <= 100 * d.
Proof.
  intros Q D [A B]. unfold Rmin. destruct (Rle_dec 100 q') as [L1|L1], (Rle_dec 100 q) as [L2|L2]; apply Rabs_le; split; try lra; nra.
Qed.

(** ** the dew point in doubles *)
Section Open.
  Variable sinf : float -> float.
  Hypothesis GS : good_sine sinf.
  Lemma wave_near kr h : (h < 24)%nat -> kr = 6%Z \/ kr = 12%Z ->
    apb (wave_any np_pi sinf kr (Z.of_nat h)) (1 / 2 * sin ((INR h + 1) * PI / IZR kr - 3 * PI / 4)) (2 / 10 ^ 14) 1.
  Proof.
    intros Hh HK. unfold wave_any. assert (B : 0 <= INR h <= 23) by (split; [apply pos_INR|replace 23 with (INR 23) by (rewrite INR_IZR_INZ; reflexivity); apply RIneq.le_INR; lia]).
    pose proof pi_bounds as PB.
    assert (A1 : apb (n_ofZ (Z.of_nat h)) (INR h) 0 23) by (rewrite INR_IZR_INZ; apply b_Z; [lia|rewrite Z.abs_eq, <- INR_IZR_INZ by lia; lra]).
    assert (A2 : apb (n1 : float) 1 0 1) by (destruct one_fin as [F V]; pose proof (b_exact (n1 : float) 1 (proj1 (ffin_spec _) F)) as X; rewrite V in X; apply X; rewrite Rabs_R1; lra).
    pose proof (b_add _ _ _ _ _ _ _ _ (3 / 10 ^ 15) 24 A1 A2 ltac:(lra) ltac:(lra) ltac:(lra)) as A3.
    pose proof (b_mul _ _ _ _ _ _ _ _ (3 / 10 ^ 14) 76 A3 b_pi ltac:(lra) ltac:(lra) ltac:(lra)) as A4.
    assert (A5 : apb ((n_ofZ (Z.of_nat h) + n1) * np_pi / n_ofZ kr)%num ((INR h + 1) * PI / IZR kr) (1 / 10 ^ 14) 13).
    { destruct HK as [-> | ->]; (eapply (b_divZ _ _ _ (3 / 10 ^ 14) 76); [lia|exact A4|lra..]). }
    assert (A6 : apb (n_ofZ 3 * np_pi)%num (3 * PI) (3 / 10 ^ 15) 10) by (eapply (b_mul _ _ _ _ 0 (2 / 10 ^ 16) 3 (315 / 100)); [apply (b_Z 3); num|exact b_pi|lra..]).
    assert (A7 : apb (n_ofZ 3 * np_pi / n_ofZ 4)%num (3 * PI / 4) (2 / 10 ^ 15) 3) by (eapply (b_divZ _ 4 _ (3 / 10 ^ 15) 10); [lia|exact A6|lra..]).
    pose proof (b_sub _ _ _ _ _ _ _ _ (15 / 10 ^ 15) 16 A5 A7 ltac:(lra) ltac:(lra) ltac:(lra)) as A8.
    pose proof (b_sin _ _ _ _ _ (16 / 10 ^ 15) GS A8 ltac:(lra) ltac:(lra) ltac:(lra)) as A9.
    assert (L : apb (lit 5 1) (1 / 2) (1 / 10 ^ 16) 1) by (apply (b_eq _ (IZR 5 / IZR (10 ^ 1))); [apply (b_lit 5 1); num|num]).
    exact (b_mul _ _ _ _ _ _ _ _ (2 / 10 ^ 14) 1 L A9 ltac:(lra) ltac:(lra) ltac:(lra)).
  Qed.
  Definition dew_any (a0 a1 m m' : float) (kr : Z) (h : nat) : float :=
    ((a0 + a1 * m) + (n_ofZ (Z.of_nat h) / n_ofZ 24 * ((a0 + a1 * m') - (a0 + a1 * m)) + wave_any np_pi sinf kr (Z.of_nat h)))%num.
  Lemma dew_course_near a0 a1 m m' kr h : coefficient 1000 a0 -> coefficient 5 a1 -> air m -> air m' -> (h < 24)%nat -> kr = 6%Z \/ kr = 12%Z ->
    app (dew_any a0 a1 m m' kr h) (dew_course (fval a0) (fval a1) kr (fval m) (fval m') h) (1 / 10 ^ 11).
  Proof.
    intros [F0 B0] [F1 B1] [FM BM] [FM' BM'] Hh HK. pose proof (wave_near kr h Hh HK) as W. unfold dew_any.
    assert (X0 : apb a0 (fval a0) 0 1000) by (apply b_exact; assumption). assert (X1 : apb a1 (fval a1) 0 5) by (apply b_exact; assumption).
    assert (XM : apb m (fval m) 0 400) by (apply b_exact; [exact FM|rewrite Rabs_pos_eq; lra]). assert (XM' : apb m' (fval m') 0 400) by (apply b_exact; [exact FM'|rewrite Rabs_pos_eq; lra]).
    pose proof (b_mul _ _ _ _ _ _ _ _ (25 / 10 ^ 14) 2000 X1 XM ltac:(lra) ltac:(lra) ltac:(lra)) as P1. pose proof (b_mul _ _ _ _ _ _ _ _ (25 / 10 ^ 14) 2000 X1 XM' ltac:(lra) ltac:(lra) ltac:(lra)) as P2.
    pose proof (b_add _ _ _ _ _ _ _ _ (62 / 10 ^ 14) 3000 X0 P1 ltac:(lra) ltac:(lra) ltac:(lra)) as S1. pose proof (b_add _ _ _ _ _ _ _ _ (62 / 10 ^ 14) 3000 X0 P2 ltac:(lra) ltac:(lra) ltac:(lra)) as S2.
    pose proof (b_sub _ _ _ _ _ _ _ _ (2 / 10 ^ 12) 6000 S2 S1 ltac:(lra) ltac:(lra) ltac:(lra)) as D.
    assert (B : 0 <= INR h <= 23) by (split; [apply pos_INR|replace 23 with (INR 23) by (rewrite INR_IZR_INZ; reflexivity); apply RIneq.le_INR; lia]).
    assert (A1 : apb (n_ofZ (Z.of_nat h)) (INR h) 0 23) by (rewrite INR_IZR_INZ; apply b_Z; [lia|rewrite Z.abs_eq, <- INR_IZR_INZ by lia; lra]).
    assert (Q : apb (n_ofZ (Z.of_nat h) / n_ofZ 24)%num (INR h / 24) (13 / 10 ^ 17) 1) by (eapply (b_divZ _ 24 _ 0 23); [lia|exact A1|lra..]).
    pose proof (b_mul _ _ _ _ _ _ _ _ (36 / 10 ^ 13) 6000 Q D ltac:(lra) ltac:(lra) ltac:(lra)) as R1.
    pose proof (b_add _ _ _ _ _ _ _ _ (44 / 10 ^ 13) 6001 R1 W ltac:(lra) ltac:(lra) ltac:(lra)) as R2.
    pose proof (b_add _ _ _ _ _ _ _ _ (7 / 10 ^ 12) 9001 S1 R2 ltac:(lra) ltac:(lra) ltac:(lra)) as R3.
    eapply app_eq; [eapply app_weaken; [exact (proj1 R3)|lra]|unfold dew_course; ring].
  Qed.
End Open.
