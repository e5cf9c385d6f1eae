(** Property C114: 'mean_course_mean' in binary64 arithmetic. *)
From Coq Require Import String ZArith List Bool Lia Reals Lra Floats.
From Flocq Require Import Core.
From Verif Require Import Py Num Cal Series UtilModel UtilModel2 Frame TempModel SpecBase SpecUtil SpecTemp TimeProofs IndexProofs DaysProofs
  CourseProofs TempProofs TempCourse F64 CascadeFloat CascadeRound FiveModel SpecFiveRound FiveRound SpecCourseRound SpecSineRound SpecScaleRound ScaleRound SpecMasterRound
  CourseModel CourseRound CourseMeanModel SpecCourseMean CourseMean PropsCourseRound.
Import ListNotations.
Open Scope Z_scope.

Lemma seq_of_24 {A} (l : list A) a : length l = 24%nat -> l = map (fun h => nth h l a) (seq 0 24).
Proof. intro L. do 24 (destruct l as [|? l]; [discriminate L|]). destruct l; [reflexivity|discriminate L]. Qed.
Lemma unit_moderate v : in_unit v -> moderate v.
Proof.
  intro H. apply moderate_fok. destruct (unit_spec v H) as [F [A B]]. split; [split; [exact F|exact A]|].
  pose proof ErrCalc.cap_1. lra.
Qed.
Lemma unit_mean vs : length vs = 24%nat -> Forall in_unit vs -> (0 <= Rmean (map fval vs) <= 1)%R.
Proof.
  intros L H. apply Rmean_bounds; [destruct vs; discriminate|]. intros x Hx. apply in_map_iff in Hx as (v & <- & Hv).
  rewrite Forall_forall in H. apply (unit_spec v (H v Hv)).
Qed.
Lemma mean_near (F G : nat -> R) e : (forall h, (h < 24)%nat -> (Rabs (F h - G h) <= e)%R) ->
  (Rabs (Rmean (map F (seq 0 24)) - Rmean (map G (seq 0 24))) <= e)%R.
Proof.
  intro H. assert (B : forall h, (h < 24)%nat -> (G h - e <= F h <= G h + e)%R) by (intros h Hh; pose proof (H h Hh) as X; apply Rabs_le_inv in X; lra).
  pose proof (fun h (Hh : (h < 24)%nat) => proj1 (B h Hh)) as B1. pose proof (fun h (Hh : (h < 24)%nat) => proj2 (B h Hh)) as B2.
  assert (S : (Rsum (map G (seq 0 24)) - 24 * e <= Rsum (map F (seq 0 24)) <= Rsum (map G (seq 0 24)) + 24 * e)%R).
  { cbn [seq map Rsum fold_right]. unfold Rsum. cbn [fold_right].
    pose proof (B 0%nat ltac:(lia)); pose proof (B 1%nat ltac:(lia)); pose proof (B 2%nat ltac:(lia)); pose proof (B 3%nat ltac:(lia)); pose proof (B 4%nat ltac:(lia)); pose proof (B 5%nat ltac:(lia)).
    pose proof (B 6%nat ltac:(lia)); pose proof (B 7%nat ltac:(lia)); pose proof (B 8%nat ltac:(lia)); pose proof (B 9%nat ltac:(lia)); pose proof (B 10%nat ltac:(lia)); pose proof (B 11%nat ltac:(lia)).
    pose proof (B 12%nat ltac:(lia)); pose proof (B 13%nat ltac:(lia)); pose proof (B 14%nat ltac:(lia)); pose proof (B 15%nat ltac:(lia)); pose proof (B 16%nat ltac:(lia)); pose proof (B 17%nat ltac:(lia)).
    pose proof (B 18%nat ltac:(lia)); pose proof (B 19%nat ltac:(lia)); pose proof (B 20%nat ltac:(lia)); pose proof (B 21%nat ltac:(lia)); pose proof (B 22%nat ltac:(lia)); pose proof (B 23%nat ltac:(lia)).
    lra. }
  unfold Rmean. rewrite !map_length, seq_length. replace (INR 24) with 24%R by (cbn [INR]; lra). apply Rabs_le. lra.
Qed.

Theorem C114_mean mean e (d : dframe float) d0 tmin tmax temp c (g : Z -> list float) : means_within mean ->
  daily_temps d d0 tmin tmax temp ->
  (forall i, (i < length temp)%nat -> let m := month_of_day (d0 + Z.of_nat i) in
     length (g m) = 24%nat /\ entry_of m c = Some (day_column (g m))) ->
  exists out, temp_course_mean mean e d c = Ok out /\ map fst out = hours_index d0 (length temp) /\
    forall i lo hi m, nth_error tmin i = Some lo -> nth_error tmax i = Some hi -> nth_error temp i = Some m ->
      tame lo -> tame hi -> tame m -> (lo <=? hi)%float = true ->
      let vs := g (month_of_day (d0 + Z.of_nat i)) in
      Forall in_unit vs -> moved_to lo hi m vs (values_on (d0 + Z.of_nat i) out).
Proof.
  intros HM (NE & FI & L1 & L2 & C1 & C2 & C3) HC.
  rewrite (mean_shape mean e d d0 tmin tmax temp c (fun day h => (nth h (g (month_of_day day)) n_nan - mean (g (month_of_day day)))%num) NE L1 L2 FI C1 C2 C3).
  2:{ intros i h Hi Hh. destruct (HC i Hi) as [LG EC]. rewrite entry_lookup in EC.
      rewrite (zero_mean_value mean c (day_column (g (month_of_day (d0 + Z.of_nat i)))) _ (nth h (g (month_of_day (d0 + Z.of_nat i))) n_nan)).
      - f_equal. f_equal. f_equal. unfold day_column. clear - LG. set (l := g _) in *. clearbody l.
        do 24 (destruct l as [|? l]; [discriminate LG|]). destruct l; [reflexivity|discriminate LG].
      - rewrite stamp_month by exact Hh. exact EC.
      - rewrite stamp_hour by exact Hh. rewrite lookup_day_column by assumption. apply nth_error_nth'. lia. }
  eexists. split; [reflexivity|]. split; [rewrite map_map; apply map_id|].
  intros i lo hi m E1 E2 E3 T1 T2 T3 LE vs HU.
  assert (Hi : (i < length temp)%nat) by (apply nth_error_Some; congruence).
  destruct (HC i Hi) as [LG _]. fold vs in LG.
  set (ws := values_on (d0 + Z.of_nat i) _).
  assert (EW : ws = map (mean_w lo hi m (mean vs)) vs).
  { unfold ws. rewrite (values_on_map_hours (fun t => (at_day d0 temp n_nan t + (at_day d0 tmax n_nan t - at_day d0 tmin n_nan t) * (nth (Z.to_nat (hour_of t)) (g (month_of_day (date_of t))) n_nan - mean (g (month_of_day (date_of t)))))%num)) by exact Hi.
    rewrite (f_equal (map (mean_w lo hi m (mean vs))) (seq_of_24 vs n_nan LG)). rewrite map_map. apply map_ext_in. intros h Hh. apply in_seq in Hh.
    rewrite !at_day_stamp, stamp_hour, stamp_date, Nat2Z.id by lia.
    rewrite (nth_error_nth _ _ _ E1), (nth_error_nth _ _ _ E2), (nth_error_nth _ _ _ E3). reflexivity. }
  clearbody ws. subst ws.
  assert (UU : forall h v, nth_error vs h = Some v -> in_unit v) by (intros h v H; rewrite Forall_forall in HU; apply HU; eapply nth_error_In; exact H).
  assert (MD : Forall moderate vs) by (eapply Forall_impl; [|exact HU]; intros x; apply unit_moderate).
  destruct (HM vs LG MD) as (Fm & _ & Em). apply ffin_spec in Fm. pose proof (unit_mean vs LG HU) as MU.
  pose proof (fun v Hv => mean_facts lo hi m (mean vs) (Rmean (map fval vs)) T1 T2 T3 LE MU Fm Em v Hv) as MF.
  split; [rewrite map_length; exact LG|]. split; [|split; [|split]].
  - intros h v w Hv Hw. rewrite nth_error_map, Hv in Hw. injection Hw as <-.
    destruct (MF v (UU h v Hv)) as (_ & _ & _ & _ & _ & _ & FW & _ & B). split; [apply ffin_spec; exact FW|exact B].
  - set (mu := Rmean (map fval vs)) in *.
    set (G := fun h => (fval m + (fval hi - fval lo) * (fval (nth h vs n_nan) - mu))%R).
    assert (EG : Rmean (map G (seq 0 24)) = fval m).
    { assert (EM : mu = Rmean (map (fun h => fval (nth h vs n_nan)) (seq 0 24))).
      { unfold mu. rewrite (f_equal (map fval) (seq_of_24 vs n_nan LG)). rewrite map_map. reflexivity. }
      unfold Rmean in *. rewrite map_length, seq_length in *. unfold G. clearbody mu. clear - EM. unfold Rsum in *. cbn [seq map fold_right INR] in *.
      rewrite EM. field. }
    rewrite <- EG. rewrite map_map. rewrite (f_equal (map (fun x => fval (mean_w lo hi m (mean vs) x))) (seq_of_24 vs n_nan LG)). rewrite map_map. apply mean_near. intros h Hh.
    destruct (MF (nth h vs n_nan)) as (_ & _ & _ & _ & _ & _ & _ & _ & B); [|exact B].
    apply (UU h). apply nth_error_nth'. lia.
  - intros h k v v' w w' Hv Hv' Hw Hw' O. rewrite nth_error_map, Hv in Hw. rewrite nth_error_map, Hv' in Hw'. injection Hw as <-. injection Hw' as <-.
    apply (mean_mono lo hi m (mean vs) (Rmean (map fval vs)) T1 T2 T3 LE MU Fm Em); eauto.
  - intro Q. rewrite Forall_map. eapply Forall_impl; [|exact HU]. intros v Hv.
    exact (mean_flat lo hi m (mean vs) (Rmean (map fval vs)) T1 T2 T3 LE MU Fm Em v Hv Q).
Qed.
Print Assumptions C114_mean.

(** the same function of the numbers is what [disaggregate_temperature] computes *)
Theorem C114_same_formula e (d : dframe xr) mmt modn md c st :
  disaggregate_temperature e d "mean_course_mean" mmt modn md (Some c) st = temp_course_mean nanmean e d c.
Proof.
  unfold disaggregate_temperature, temp_course_mean. cbn [String.eqb Ascii.eqb Bool.eqb orb negb].
  destruct (hourly_index e (f_index d)); reflexivity.
Qed.
Print Assumptions C114_same_formula.

(** the mean of the hours is not exactly the daily mean: range 1, mean 0, course 0 for 23 hours and 1 for one *)
Definition one_hour : list float := repeat 0%float 23 ++ [1%float].
Definition one_frame : dframe float :=
  {| f_index := daily_index 0 1; f_cols := [("tmin"%string, [0%float]); ("tmax"%string, [1%float]); ("temp"%string, [0%float])] |}.
Definition plain_mean (l : list float) : float := (fold_left PrimFloat.add l 0 / n_ofZ 24)%float.
Theorem C114_exact_mean_refuted : exists out, temp_course_mean plain_mean modern one_frame [(1, day_column one_hour)] = Ok out /\
  Rmean (map fval (values_on 0 out)) <> fval 0%float.
Proof.
  eexists. split; [vm_compute; reflexivity|].
  match goal with |- Rmean (map fval ?l) <> _ => let l' := eval vm_compute in l in change l with l' end.
  change (fval 0%float) with 0%R. unfold Rmean. intro H. apply Rmult_integral in H as [H|H].
  - revert H. unfold Rsum. cbn [map fold_right]. unfold fval. vm_compute. intro H. lra.
  - revert H. apply Rinv_neq_0_compat. apply not_0_INR. discriminate.
Qed.
Print Assumptions C114_exact_mean_refuted.

Example C114_met : means_within (fun l => (kahan l / n_ofZ 24)%float) /\ (forall tot, adds_somehow tot -> means_within (fun l => (tot l / n_ofZ 24)%float)) /\
  daily_temps one_frame 0 [0%float] [1%float] [0%float] /\ length one_hour = 24%nat /\ Forall in_unit one_hour /\
  entry_of (month_of_day (0 + Z.of_nat 0)) [(1, day_column one_hour)] = Some (day_column one_hour) /\
  tame 0%float /\ tame 1%float /\ (0 <=? 1)%float = true.
Proof.
  split; [exact mean_kahan|]. split; [exact mean_adds|]. repeat split; try reflexivity; try discriminate. unfold one_hour. repeat constructor.
Qed.
