(** Property C109: scaling a radiation course to daily means in binary64 arithmetic. *)
From Coq Require Import String ZArith List Bool Lia Reals Lra Floats.
From Flocq Require Import Core BinarySingleNaN PrimFloat.
From Verif Require Import Py Num Cal Series UtilModel UtilModel2 Frame TempModel RadModel SpecBase SpecUtil TimeProofs IndexProofs DaysProofs CourseProofs TempProofs TempCourse RadProofs
  F64 CascadeFloat CascadeRound SpecMasterRound MasterRound SpecFiveRound FiveModel FiveRound SpecCourseRound CourseModel CourseRound
  SpecSineRound ErrCalc SineRound WindRound PropsCourseRound SpecScaleRound ScaleModel ScaleRound.
Import ListNotations.
Open Scope Z_scope.

(** what pandas may do to obtain a mean: any order of additions, or compensated summation *)
Theorem C109_means : (forall tot, adds_somehow tot -> means_within (fun l => (tot l / n_ofZ 24)%float)) /\
  means_within (fun l => (kahan l / n_ofZ 24)%float).
Proof. split; [exact mean_adds|exact mean_kahan]. Qed.
Print Assumptions C109_means.

(** the same functions of the numbers are what [disaggregate_radiation] computes *)
Theorem C109_same_formula e (d : dframe xr) st ps1 ps2 :
  (forall pot mc, disaggregate_radiation e d st (Some pot) "pot_rad" ps1 ps2 mc = rad_pot_with nanmean e d pot) /\
  (forall pot c, disaggregate_radiation e d st pot "mean_course" ps1 ps2 (Some c) = rad_course_with nanmean e d c).
Proof.
  split; intros.
  - unfold disaggregate_radiation, rad_pot_with. cbn [String.eqb Ascii.eqb Bool.eqb orb negb]. reflexivity.
  - unfold disaggregate_radiation, rad_course_with, rad_pot_with. cbn [String.eqb Ascii.eqb Bool.eqb orb negb].
    destruct (hourly_index e (f_index d)) as [hours|]; [|reflexivity]. cbn [bind]. unfold course_at, course_value.
    match goal with |- context [mapM ?f hours] => destruct (mapM f hours) as [v|] end; reflexivity.
Qed.
Print Assumptions C109_same_formula.

Lemma Rsum_nonneg_ge (l : list R) : Forall (fun x => (0 <= x)%R) l -> forall x, In x l -> (x <= Rsum l)%R.
Proof.
  unfold Rsum. induction 1 as [|y l Hy Hl IH]; intros x Hx; [destruct Hx|]. cbn [fold_right].
  assert (S0 : (0 <= fold_right Rplus 0 l)%R) by (clear - Hl; induction Hl; cbn; lra).
  destruct Hx as [->|Hx]; [lra|]. specialize (IH x Hx). lra.
Qed.
Lemma intensity_moderate x : intensity x -> moderate x.
Proof.
  intro H. destruct (intensity_spec x H) as [F [P C]]. apply moderate_fok. split; [split; assumption|].
  pose proof cap4_square as [K1 K2]. nra.
Qed.
Lemma lit_mean p : lit_day p -> (/ 10 ^ 100 <= Rmean (map fval p) /\ forall x, In x p -> fval x <= 24 * Rmean (map fval p))%R.
Proof.
  intros (L & I & x & Hx & Bx).
  assert (NN : Forall (fun y => (0 <= y)%R) (map fval p)).
  { apply Forall_map. eapply Forall_impl; [|exact I]. intros y Hy. apply (intensity_spec y Hy). }
  assert (ES : (24 * Rmean (map fval p) = Rsum (map fval p))%R).
  { unfold Rmean. rewrite map_length, L, INR_IZR_INZ. cbn [Z.of_nat Pos.of_succ_nat Pos.succ]. field. }
  assert (GE : forall y, In y p -> (fval y <= 24 * Rmean (map fval p))%R).
  { intros y Hy. rewrite ES. apply Rsum_nonneg_ge; [exact NN|apply in_map, Hy]. }
  split; [|exact GE]. specialize (GE x Hx). rewrite Forall_forall in I. destruct (intensity_spec x (I x Hx)) as [F _].
  assert (F3 : ffin 0x1p-300%float) by reflexivity. apply (leb_true _ _ F3 F) in Bx.
  assert (V : fval 0x1p-300%float = bpow radix2 (-300)) by (unfold fval; vm_compute; lra). rewrite V in Bx.
  assert (B : (24 / 10 ^ 100 <= bpow radix2 (-300))%R).
  { change (bpow radix2 (-300)) with (/ IZR (2 ^ 300))%R. apply Rmult_le_reg_r with (IZR (2 ^ 300)); [apply IZR_lt; lia|]. rewrite Rinv_l by (apply not_0_IZR; lia).
    rewrite (pow_IZR 10). apply Rmult_le_reg_r with (IZR (10 ^ Z.of_nat 100)); [apply IZR_lt; lia|].
    replace (24 / IZR (10 ^ Z.of_nat 100) * IZR (2 ^ 300) * IZR (10 ^ Z.of_nat 100))%R with (24 * IZR (2 ^ 300))%R by (field; apply not_0_IZR; lia).
    rewrite Rmult_1_l, <- mult_IZR. apply IZR_le. apply Z.leb_le. vm_compute. reflexivity. }
  lra.
Qed.
Lemma Rsum_between {A} (f y : A -> R) a b c l : (forall x, In x l -> (y x - a * y x - b <= f x <= y x + c * y x)%R) ->
  (Rsum (map y l) - a * Rsum (map y l) - INR (length l) * b <= Rsum (map f l) <= Rsum (map y l) + c * Rsum (map y l))%R.
Proof.
  unfold Rsum. induction l as [|x l IH]; intro H; [cbn; lra|]. cbn [map fold_right length]. rewrite S_INR.
  specialize (IH (fun z Hz => H z (or_intror Hz))). specialize (H x (or_introl eq_refl)). lra.
Qed.

Lemma day_scaled mean p g : means_within mean -> lit_day p -> intensity g ->
  scaled_to p g (map (fun x => cut_small (x / mean p * g)%num) p).
Proof.
  intros HM LD Ig. destruct (lit_mean p LD) as [M0 GE]. destruct LD as (L & I & _).
  assert (MOD : Forall moderate p) by (eapply Forall_impl; [|exact I]; intro; apply intensity_moderate).
  destruct (HM p L MOD) as (Fm & _ & Em). apply ffin_spec in Fm. rewrite Forall_forall in I.
  set (m := mean p) in *. set (M := Rmean (map fval p)) in *.
  assert (HS : forall x, In x p -> _) by (intros x Hx; exact (hour_scaled m g M M0 Em Ig x (I x Hx) (GE x Hx))).
  change (map _ p) with (map (hour_of_course m g) p).
  split; [rewrite map_length; exact L|]. split; [|split].
  - intros h x v Hx Hv. rewrite nth_error_map, Hx in Hv. injection Hv as <-. apply nth_error_In in Hx. split; apply (HS x Hx).
  - intros h k x y v u Hx Hy Hv Hu LE. rewrite nth_error_map, Hx in Hv. rewrite nth_error_map, Hy in Hu. injection Hv as <-. injection Hu as <-.
    apply nth_error_In in Hx, Hy. apply (hour_mono m g M M0 Em Ig); auto.
  - destruct (intensity_spec g Ig) as [Fg [G0 _]].
    assert (P : (0 < / 10 ^ 100)%R) by (apply Rinv_0_lt_compat, pow_lt; lra).
    pose proof (Rsum_between (fun x => fval (hour_of_course m g x)) (fun x => fval x / M * fval g)%R (1 / 10 ^ 13) (1 / 100 + 1 / 10 ^ 15) (1 / 10 ^ 13) p) as B.
    assert (ES : (Rsum (map (fun x => fval x / M * fval g)%R p) = 24 * fval g)%R).
    { pose proof (Rsum_scale (map fval p) (fval g)) as Q. rewrite map_map, map_length, L in Q. fold M in Q. rewrite Q.
      - rewrite INR_IZR_INZ. reflexivity.
      - intro K. apply map_eq_nil in K. subst p. discriminate.
      - lra. }
    rewrite ES, L in B. unfold Rmean. rewrite map_map, map_length, L. replace (INR 24) with 24%R in * by (rewrite INR_IZR_INZ; reflexivity).
    assert (B' := B). clear B. destruct B' as [B1 B2]; [|lra].
    intros x Hx. destruct (HS x Hx) as ((_ & HC) & W0 & _). destruct (intensity_spec x (I x Hx)) as [_ [X0 _]].
    assert (Y0 : (0 <= fval x / M * fval g)%R) by (apply Rmult_le_pos; [apply Rmult_le_pos; [exact X0|left; apply Rinv_0_lt_compat; lra]|exact G0]).
    destruct HC as [[Z Y]|[_ K]].
    + assert (fval (hour_of_course m g x) = 0)%R; [|lra].
      destruct (ratio_value m g M M0 Em Ig x (I x Hx) (GE x Hx)) as (_ & _ & _ & F2 & _ & _ & W2 & _).
      destruct (cut_cases (x / m * g)%float F2 W2) as [(Q & _)|(Q & _)].
      * unfold hour_of_course. rewrite Q. reflexivity.
      * unfold hour_of_course in *. rewrite Q in *. apply (eqb_true _ _ F2 ffin_zero) in Z. exact Z.
    + apply Rabs_le_inv in K. lra.
Qed.

(** 'pot_rad' *)
Theorem C109_pot_rad mean e (d : dframe float) d0 gl pot :
  means_within mean -> gl <> [] -> f_index d = daily_index d0 (length gl) -> assoc "glob" (f_cols d) = Some gl ->
  map fst pot = hours_index d0 (length gl) ->
  exists out, rad_pot_with mean e d pot = Ok out /\ map fst out = hours_index d0 (length gl) /\
    forall i g, nth_error gl i = Some g -> intensity g -> lit_day (values_on (d0 + Z.of_nat i) pot) ->
      scaled_to (values_on (d0 + Z.of_nat i) pot) g (values_on (d0 + Z.of_nat i) out).
Proof.
  intros HM NE FI C EP. destruct (rad_pot_days mean e d d0 gl pot NE FI C EP) as (out & E & EI & V).
  exists out. split; [exact E|]. split; [exact EI|]. intros i g Hg Ig LD. rewrite (V i g Hg). apply day_scaled; assumption.
Qed.
Print Assumptions C109_pot_rad.

(** 'mean_course' *)
Theorem C109_mean_course mean e (d : dframe float) d0 gl c (t : Z -> list float) :
  means_within mean -> gl <> [] -> f_index d = daily_index d0 (length gl) -> assoc "glob" (f_cols d) = Some gl ->
  (forall i, (i < length gl)%nat -> let m := month_of_day (d0 + Z.of_nat i) in
     length (t m) = 24%nat /\ entry_of m c = Some (day_column (t m))) ->
  exists out, rad_course_with mean e d c = Ok out /\ map fst out = hours_index d0 (length gl) /\
    forall i g, nth_error gl i = Some g -> intensity g -> lit_day (t (month_of_day (d0 + Z.of_nat i))) ->
      scaled_to (t (month_of_day (d0 + Z.of_nat i))) g (values_on (d0 + Z.of_nat i) out).
Proof.
  intros HM NE FI C HC.
  assert (NL : length gl <> O) by (destruct gl; [contradiction|discriminate]).
  rewrite (rad_course_days mean e d d0 (length gl) c t NL FI).
  2:{ intros i h Hi Hh. destruct (HC i Hi) as [LG EC]. unfold course_value. rewrite stamp_month, stamp_hour by exact Hh.
      rewrite entry_lookup in EC. rewrite EC, lookup_day_column by assumption. rewrite (nth_error_nth' (t (month_of_day (d0 + Z.of_nat i))) h n_nan) by lia. reflexivity. }
  destruct (rad_pot_days mean e d d0 gl (map (fun u => (u, table_value t u)) (hours_index d0 (length gl))) NE FI C) as (out & E & EI & V).
  { rewrite map_map. apply map_id. }
  exists out. split; [exact E|]. split; [exact EI|]. intros i g Hg Ig LD.
  assert (Hi : (i < length gl)%nat) by (apply nth_error_Some; congruence).
  rewrite (V i g Hg). rewrite values_on_map_hours by exact Hi.
  destruct (HC i Hi) as [LG _]. set (vs := t (month_of_day (d0 + Z.of_nat i))) in *.
  assert (EV : map (fun h => table_value t (stamp (d0 + Z.of_nat i) h)) (seq 0 24) = vs).
  { transitivity (map (fun h => nth h vs n_nan) (seq 0 24)).
    - apply map_ext_in. intros h Hh. apply in_seq in Hh. unfold table_value. rewrite stamp_hour, stamp_date, Nat2Z.id by lia. reflexivity.
    - clear - LG. clearbody vs. do 24 (destruct vs as [|? vs]; [discriminate LG|]). destruct vs; [reflexivity|discriminate LG]. }
  rewrite EV. apply day_scaled; assumption.
Qed.
Print Assumptions C109_mean_course.

(** the mean computed back from the hours *)
Theorem C109_back mean p g w : means_within mean -> lit_day p -> intensity g -> scaled_to p g w ->
  PrimFloat.is_finite (mean w) = true /\
  (fval g - 1 / 100 - (2 / 10 ^ 13 * fval g + 1 / 10 ^ 14) <= fval (mean w) <= fval g + 2 / 10 ^ 13 * fval g + 1 / 10 ^ 300)%R.
Proof.
  intros HM LD Ig (L & HV & _ & B). destruct (lit_mean p LD) as [M0 GE]. destruct LD as (LP & I & _). destruct (intensity_spec g Ig) as [Fg [G0 GC]].
  assert (MOD : Forall moderate w).
  { apply Forall_forall. intros v Hv. apply In_nth_error in Hv as [h Hv].
    assert (Hh : (h < 24)%nat) by (rewrite <- L; apply nth_error_Some; congruence).
    destruct (nth_error p h) as [x|] eqn:Hx; [|apply nth_error_None in Hx; lia].
    destruct (HV h x v Hx Hv) as [(Fv & HC) _]. apply ffin_spec in Fv. apply moderate_fok.
    pose proof cap4_square as [K1 K2]. pose proof cap_1 as C1. apply nth_error_In in Hx. rewrite Forall_forall in I. destruct (intensity_spec x (I x Hx)) as [_ [X0 XC]].
    destruct HC as [[Z _]|[P K]].
    - apply (eqb_true _ _ Fv ffin_zero) in Z. change (fval n0) with 0%R in Z. split; [split; [exact Fv|lra]|lra].
    - destruct cent as (FC & EC & VC). rewrite <- VC in P. apply (leb_true _ _ FC Fv) in P. apply Rabs_le_inv in EC. split; [split; [exact Fv|lra]|].
      assert (P0 : (0 < / 10 ^ 100)%R) by (apply Rinv_0_lt_compat, pow_lt; lra).
      assert (R0 : (0 <= fval x / Rmean (map fval p) <= 24)%R).
      { split; [apply Rmult_le_pos; [exact X0|left; apply Rinv_0_lt_compat; lra]|]. apply Rmult_le_reg_r with (Rmean (map fval p)); [lra|].
        unfold Rdiv. rewrite Rmult_assoc, Rinv_l by lra. rewrite Rmult_1_r. exact (GE x Hx). }
      assert (Y : (fval x / Rmean (map fval p) * fval g <= 24 * cap4)%R).
      { eapply Rle_trans; [apply Rmult_le_compat_r; [exact G0|exact (proj2 R0)]|]. lra. }
      assert (C4 : (48 * cap4 <= cap)%R).
      { unfold cap4, cap. change 48%R with (48%R). apply Rle_trans with (bpow radix2 6 * bpow radix2 400)%R.
        - apply Rmult_le_compat_r; [apply bpow_ge_0|]. change (bpow radix2 6) with (IZR 64). apply IZR_le. lia.
        - rewrite <- bpow_plus. apply bpow_le. lia. }
      apply Rabs_le_inv in K. lra. }
  destruct (HM w L MOD) as (Fm & M1 & Em). split; [exact Fm|]. apply Rabs_le_inv in Em.
  assert (T : (1 / 10 ^ 300 <= 1 / 10 ^ 18)%R).
  { unfold Rdiv. rewrite !Rmult_1_l. apply Rinv_le; [apply pow_lt; lra|]. apply Rle_pow; [lra|lia]. }
  lra.
Qed.
Print Assumptions C109_back.

(** ** the hypotheses can be met *)
Definition ex_sun : list float := (repeat 0 6 ++ [10; 50; 120; 200; 260; 300; 300; 260; 200; 120; 50; 10] ++ repeat 0 6)%float%list.
Example C109_met : lit_day ex_sun /\ intensity 87.5%float /\
  f_index {| f_index := daily_index 19000 1; f_cols := [("glob"%string, [87.5%float])] |} = daily_index 19000 1 /\
  map fst (combine (hours_index 19000 1) ex_sun) = hours_index 19000 1 /\ values_on 19000 (combine (hours_index 19000 1) ex_sun) = ex_sun.
Proof.
  split; [|split; [reflexivity|split; [reflexivity|split; reflexivity]]].
  split; [reflexivity|]. split.
  - repeat (constructor; [reflexivity|]). constructor.
  - exists 300%float. split; [|reflexivity]. do 11 right. left. reflexivity.
Qed.
(** an adder as in [C109_means]: from left to right *)
Example C109_adder_exists : adds_somehow (fun l => fold_left (fun a b => a + b)%float l 0%float).
Proof. intros l L _. exists 1%nat. split; [lia|]. exact (adds_left l [0%float] 0%float (adds_one _)). Qed.
