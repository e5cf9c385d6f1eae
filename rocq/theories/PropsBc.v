(** Property C137: radiation from the temperature range in doubles. *)
From Coq Require Import String ZArith List Bool Lia Reals Lra Floats.
From Flocq Require Import Core.
From Verif Require Import Py Num Cal Series Frame Trans UtilModel UtilModel2 TempModel TempProofs CascadeProofs RadModel SpecBase SpecUtil TimeProofs IndexProofs DaysProofs RadProofs F64 CascadeFloat CascadeRound FiveRound CourseRound
  SpecSineRound ErrCalc SineRound PropsSineRound RadAny RadAnyModel SpecRadAny PropsRadAny
  SpecFiveRound SpecCourseRound SpecScaleRound ScaleModel ScaleRound PropsScaleRound SpecSsd PropsSsd BcModel SpecBc FiveModel.
Import ListNotations.
Open Scope Z_scope.

(** the same function of the numbers is what the exact model computes *)
Theorem C137_same_formula e d st pot ps ps2 mc :
  disaggregate_radiation e d st (Some pot) "pot_rad_via_bc" ps2 ps mc = rad_bc_with nanmean nanmean xexp xpow e d pot (any_of ps).
Proof.
  unfold disaggregate_radiation, rad_bc_with. cbn [String.eqb Ascii.eqb Bool.eqb orb negb].
  destruct (hourly_index e (f_index d)) as [hours|]; [|reflexivity]. cbn [bind].
  destruct (fcol "tmin" d) as [lo|]; [|reflexivity]. cbn [bind]. destruct (fcol "tmax" d) as [hi|]; [|reflexivity]. cbn [bind].
  rewrite C124_same_bristow. reflexivity.
Qed.
Print Assumptions C137_same_formula.

Section Generic.
  Context {T : Type} {N : Num T}.
  Lemma rad_bc_days mean mmean expf powf e (d : dframe T) d0 tmin tmax pot ps vs : tmin <> [] -> f_index d = daily_index d0 (length tmin) ->
    assoc "tmin" (f_cols d) = Some tmin -> assoc "tmax" (f_cols d) = Some tmax -> length tmax = length tmin -> map fst pot = hours_index d0 (length tmin) ->
    bristow_any expf powf mmean ps (daily d0 tmin) (daily d0 tmax) (daily d0 (map (fun i => mean (values_on (d0 + Z.of_nat i) pot)) (seq 0 (length tmin)))) = Ok (daily d0 vs) ->
    length vs = length tmin ->
    exists out, rad_bc_with mean mmean expf powf e d pot ps = Ok out /\ map fst out = hours_index d0 (length tmin) /\
      forall i g, nth_error vs i = Some g ->
        values_on (d0 + Z.of_nat i) out = map (fun x => cut_small (x / mean (values_on (d0 + Z.of_nat i) pot) * g)%num) (values_on (d0 + Z.of_nat i) pot).
  Proof.
    intros NE FI C1 C2 L1 EP EB LV. unfold rad_bc_with. rewrite FI. destruct (length tmin) as [|n] eqn:EL; [destruct tmin; [contradiction|discriminate]|].
    unfold hourly_index. rewrite hourly_index_daily. cbn [bind]. unfold fcol. rewrite C1, C2, FI. cbn [bind].
    assert (E1 : combine (daily_index d0 (S n)) tmin = daily d0 tmin) by (unfold daily; rewrite EL; reflexivity).
    assert (E2 : combine (daily_index d0 (S n)) tmax = daily d0 tmax) by (unfold daily; rewrite L1; reflexivity).
    rewrite E1, E2. pose proof (resample_hours mean d0 (S n) pot EP) as ER. rewrite <- daily_seq in ER. rewrite <- ER in EB. rewrite EB. cbn [bind].
    unfold index. rewrite daily_fst, daily_has_dup. unfold daily_index. rewrite grid_increasing by (unfold us_day; lia). cbn [orb negb].
    eexists. split; [reflexivity|]. split; [unfold scale_to; rewrite map_map; cbn [fst]; exact EP|].
    intros i g Hg. apply scale_to_day with (n := S n); assumption.
  Qed.
End Generic.
Open Scope R_scope.

(** a larger daily value never makes an hour darker *)
Lemma hour_mono_daily m g g' M x : / 10 ^ 100 <= M -> Rabs (fval m - M) <= 3 / 10 ^ 14 * M + 1 / 10 ^ 300 -> intensity g -> intensity g' ->
  intensity x -> fval x <= 24 * M -> (g <=? g')%float = true -> (hour_of_course m g x <=? hour_of_course m g' x)%float = true.
Proof.
  intros M0 HM Ig Ig' Ix XM L. destruct (ratio_value m g M M0 HM Ig x Ix XM) as (F1 & E1 & m0 & F2 & E2 & Q0 & W0 & _).
  destruct (ratio_value m g' M M0 HM Ig' x Ix XM) as (_ & _ & _ & F2' & E2' & _ & W0' & _).
  destruct (intensity_spec g Ig) as [Fg [G0 _]], (intensity_spec g' Ig') as [Fg' [G0' _]].
  apply (leb_true _ _ Fg Fg') in L.
  assert (W : fval (x / m * g)%float <= fval (x / m * g')%float) by (rewrite E2, E2'; apply rnd_le, Rmult_le_compat_l; assumption).
  unfold hour_of_course, cut_small. destruct cent as (FC & _ & _).
  change (n_ltb (x / m * g)%float (lit 1 2)) with (x / m * g <? (lit 1 2 : float))%float. change (n_ltb (x / m * g')%float (lit 1 2)) with (x / m * g' <? (lit 1 2 : float))%float.
  destruct (fltb_correct _ _ F2 FC) as [K|K], (fltb_correct _ _ F2' FC) as [K'|K'].
  - reflexivity.
  - apply (leb_true _ _ ffin_zero F2'). exact W0'.
  - exfalso. lra.
  - apply (leb_true _ _ F2 F2'), W.
Qed.

Lemma finite_below_inf x : ffin x -> (x <? infinity)%float = true.
Proof.
  rewrite Flocq.IEEE754.PrimFloat.ltb_equiv. unfold ffin. destruct (Flocq.IEEE754.PrimFloat.Prim2B x) as [s|s| |s m e K]; try discriminate; reflexivity.
Qed.
Theorem C137_via_bc mean mmean expf powf ps (fa fb : Z -> float) e (d : dframe float) d0 (tmin tmax : list float) pot :
  means_within mean -> mean_like mmean -> exp_like expf -> pow_like powf ->
  tmin <> [] -> f_index d = daily_index d0 (length tmin) -> assoc "tmin" (f_cols d) = Some tmin -> assoc "tmax" (f_cols d) = Some tmax ->
  length tmax = length tmin -> map fst pot = hours_index d0 (length tmin) ->
  (forall i, (i < length tmin)%nat -> in_force ps (month_of_day (d0 + Z.of_nat i)) (fa (month_of_day (d0 + Z.of_nat i))) (fb (month_of_day (d0 + Z.of_nat i)))) ->
  let fine i := let m := month_of_day (d0 + Z.of_nat i) in
    (i < length tmin)%nat /\ fraction (fa m) /\ exponent (fb m) /\ settled_month tmin tmax d0 m /\ known_day tmin tmax i /\
    potential_day (values_on (d0 + Z.of_nat i) pot) in
  exists out, rad_bc_with mean mmean expf powf e d pot ps = Ok out /\ map fst out = hours_index d0 (length tmin) /\
    (forall i, fine i -> let day := (d0 + Z.of_nat i)%Z in let p := values_on day pot in let w := values_on day out in
       (exists g, intensity g /\ fval g <= (fval (fa (month_of_day day)) + 1 / 10 ^ 13) * Rmean (map fval p) /\ scaled_to p g w) /\
       ((spread tmin tmax i =? 0)%float = true -> Forall (fun v => (v =? 0)%float = true) w)) /\
    (forall i j, fine i -> fine j -> month_of_day (d0 + Z.of_nat i) = month_of_day (d0 + Z.of_nat j) ->
       values_on (d0 + Z.of_nat i) pot = values_on (d0 + Z.of_nat j) pot -> (spread tmin tmax i <=? spread tmin tmax j)%float = true ->
       Forall2 (fun v u => (v <=? u)%float = true) (values_on (d0 + Z.of_nat i) out) (values_on (d0 + Z.of_nat j) out)).
Proof.
  intros HM HMM HE HW NE FI C1 C2 L1 EP HF fine.
  set (pots := map (fun i => mean (values_on (d0 + Z.of_nat i) pot)) (seq 0 (length tmin))).
  assert (LP : length pots = length tmin) by (unfold pots; rewrite map_length; apply seq_length).
  destruct (C124_bristow expf powf mmean ps fa fb d0 tmin tmax pots HE HW HMM NE L1 LP HF) as (vs & EB & LV & V & MO).
  destruct (rad_bc_days mean mmean expf powf e d d0 tmin tmax pot ps vs NE FI C1 C2 L1 EP EB LV) as (out & E & EI & VO).
  exists out. split; [exact E|]. split; [exact EI|].
  assert (POT : forall i, (i < length tmin)%nat -> nth_error pots i = Some (mean (values_on (d0 + Z.of_nat i) pot))).
  { intros i Hi. unfold pots. rewrite nth_error_map, (nth_error_nth' (seq 0 (length tmin)) i O) by (rewrite seq_length; exact Hi). rewrite seq_nth by exact Hi. reflexivity. }
  assert (PP : forall p, potential_day p -> ((0 <=? mean p) && (mean p <? infinity))%float = true).
  { intros p PD. destruct (potential_mean mean p HM PD) as (F & [N B] & _). apply andb_true_iff. split; [apply (leb_true 0%float _ ffin_zero F); pose proof (proj1 lits); lra|].
    apply finite_below_inf, F. }
  assert (GET : forall i, fine i -> exists g, nth_error vs i = Some g /\ intensity g /\
      fval g <= (fval (fa (month_of_day (d0 + Z.of_nat i))) + 1 / 10 ^ 13) * Rmean (map fval (values_on (d0 + Z.of_nat i) pot)) /\
      ((spread tmin tmax i =? 0)%float = true -> (g =? 0)%float = true)).
  { intros i (Hi & FA & EX & ST & KD & PD). destruct (nth_error vs i) as [g|] eqn:Hg; [|apply nth_error_None in Hg; lia]. exists g. split; [reflexivity|].
    destruct (V i _ g (conj FA (conj EX ST)) KD (POT i Hi) (PP _ PD) Hg) as (F & G0 & G1 & G2 & GZ).
    destruct (potential_mean mean _ HM PD) as (Fm & [N B] & [M0 M1] & M2 & EM).
    set (p := values_on (d0 + Z.of_nat i) pot) in *. set (M := Rmean (map fval p)) in *. set (a := fa (month_of_day (d0 + Z.of_nat i))) in *.
    apply ffin_spec in F. apply (leb_true 0%float g ffin_zero F) in G0. pose proof (proj1 lits) as V0.
    destruct (fraction_spec a FA) as [Fa Ra].
    destruct (fmul_correct a (mean p) Fa Fm) as [VM FM]; [apply abs_small with (mean p); nra|].
    apply (leb_true g _ F FM) in G1. apply (leb_true _ _ FM Fm) in G2.
    split; [apply intensity_intro; [exact F|lra]|]. split; [|exact GZ].
    pose proof (rnd_err_nn (fval a * fval (mean p)) ltac:(apply Rmult_le_pos; lra)) as RE. rewrite <- VM in RE.
    pose proof eta64_small as ET. pose proof eta64_pos as EP0.
    apply Flocq.Core.Raux.Rabs_le_inv in EM, RE.
    assert (AP : fval a * fval (mean p) <= fval a * M + 4 / 10 ^ 14 * M) by nra.
    assert (AM : fval a * M <= M) by nra. assert (T3 : 1 / 10 ^ 300 <= 1 / 10 ^ 14 * M) by (eapply Rle_trans; [exact tiny_300|]; lra).
    unfold u64 in RE. lra. }
  split.
  - intros i FI' day p w. destruct (GET i FI') as (g & Hg & Ig & GB & GZ). pose proof (VO i g Hg) as VW. fold day in VW. fold p in VW. fold w in VW.
    destruct FI' as (Hi & _ & _ & _ & _ & PD). fold day in PD. fold p in PD.
    pose proof (day_scaled mean p g HM (proj1 PD) Ig) as SC. rewrite <- VW in SC.
    split; [exists g; split; [exact Ig|split; [exact GB|exact SC]]|].
    intro Z0. specialize (GZ Z0). destruct SC as (L & H & _). apply Forall_forall. intros v Hv. apply In_nth_error in Hv. destruct Hv as (h & Hv).
    destruct (nth_error p h) as [x|] eqn:Hx; [|rewrite VW, nth_error_map, Hx in Hv; discriminate]. apply (H h x v Hx Hv). right. exact GZ.
  - intros i j Fi Fj SM SP RR. destruct (GET i Fi) as (g & Hg & Ig & _), (GET j Fj) as (g' & Hg' & Ig' & _).
    rewrite (VO i g Hg), (VO j g' Hg'), <- SP. destruct Fi as (Hi & FA & EX & ST & KD & PD). destruct Fj as (Hj & _ & _ & _ & KD' & PD').
    assert (GG : (g <=? g')%float = true).
    { pose proof (PP _ PD) as PI. pose proof (PP _ PD') as PJ. apply andb_true_iff in PI, PJ.
      apply (MO i j _ _ g g' (eq_sym SM) (conj FA (conj EX ST)) KD KD' (POT i Hi) (POT j Hj) (proj1 PI)); [|exact (proj2 PJ)|exact Hg|exact Hg'|exact RR].
      rewrite SP. destruct (potential_mean mean _ HM PD') as (F & _). apply (leb_true _ _ F F). lra. }
    destruct PD as [LD _]. destruct (lit_mean _ LD) as [M0 GE]. destruct LD as (L & I & _).
    assert (MOD : Forall moderate (values_on (d0 + Z.of_nat i) pot)) by (eapply Forall_impl; [|exact I]; intro; apply intensity_moderate).
    destruct (HM _ L MOD) as (_ & _ & Em). rewrite Forall_forall in I. set (p := values_on (d0 + Z.of_nat i) pot) in *.
    assert (G : forall l, (forall x, In x l -> In x p) -> Forall2 (fun v u => (v <=? u)%float = true) (map (hour_of_course (mean p) g) l) (map (hour_of_course (mean p) g') l)).
    { induction l as [|x l IH]; intro H; cbn [map]; constructor; [|apply IH; intros; apply H; right; assumption].
      assert (Hx : In x p) by (apply H; left; reflexivity). apply (hour_mono_daily (mean p) g g' (Rmean (map fval p))); auto. }
    apply (G p). auto.
Qed.
Print Assumptions C137_via_bc.

(** ** the hypotheses can be met *)
Example C137_functions_exist :
  means_within (fun l => (kahan l / n_ofZ 24)%float) /\ mean_like (fun l => match filter (fun x => negb (PrimFloat.is_nan x)) l with x :: _ => x | [] => nan end) /\
  exp_like rounded_exp /\ pow_like rounded_pow.
Proof. split; [apply C109_means|]. split; [exact C124_mean_exists|]. split; [exact C124_exp_exists|exact C124_pow_exists]. Qed.
(** four days in January, the minimum of the second one missing; the ranges of the last two are 9.25 and 3.5 *)
Example C137_met : let tmin := [3.25%float; nan; 1.5%float; 1.5%float] in let tmax := [12.5%float; 7%float; 10.75%float; 5%float] in
  fraction 0.75%float /\ exponent 2.5%float /\ settled_month tmin tmax 0 1 /\ known_day tmin tmax 2 /\ known_day tmin tmax 3 /\
  (spread tmin tmax 3 <=? spread tmin tmax 2)%float = true /\ potential_day ex_sun.
Proof.
  cbv zeta. repeat (split; [reflexivity|]). split; [|split; [reflexivity|split; [reflexivity|split; [reflexivity|exact (proj2 (proj2 (proj2 C136_met)))]]]].
  intros j Hj _. destruct j as [|[|[|[|j]]]]; [left; right; left; reflexivity|left; left; reflexivity|right; reflexivity|right; reflexivity|cbn in Hj; lia].
Qed.
