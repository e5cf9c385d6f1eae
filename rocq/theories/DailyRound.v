(** Rounding errors of daily aggregates in binary64. *)
From Coq Require Import String ZArith List Bool Lia Reals Lra Floats Permutation.
From Flocq Require Import Core BinarySingleNaN PrimFloat.
From Verif Require Import Py Num Cal Series UtilModel UtilModel2 Frame SpecBase SpecUtil TimeProofs DaysProofs
  F64 CascadeFloat CascadeRound SpecMasterRound MasterRound SpecFiveRound FiveModel FiveRound SpecCourseRound CourseModel CourseRound
  SpecSineRound ErrCalc SineRound SpecDailyRound DailyModel.
Import ListNotations.
Open Scope R_scope.
Notation float := PrimFloat.float (only parsing).

Lemma known_valid (l : list float) : valid l = known l.
Proof.
  unfold valid. induction l as [|x l IH]; [reflexivity|]. cbn [filter known]. change (n_isnan x) with (f64_isnan x). rewrite isnan_spec.
  destruct (PrimFloat.is_nan x); cbn [negb]; [exact IH|f_equal; exact IH].
Qed.
Lemma known_length l : (length (known l) <= length l)%nat.
Proof. induction l as [|x l IH]; [cbn; lia|]. cbn [known]. destruct (PrimFloat.is_nan x); cbn [length]; lia. Qed.
Lemma known_known l : known (known l) = known l.
Proof. induction l as [|x l IH]; [reflexivity|]. cbn [known]. destruct (PrimFloat.is_nan x) eqn:E; [exact IH|]. cbn [known]. rewrite E, IH. reflexivity. Qed.
Lemma valid_known (l : list float) : valid (known l) = valid l.
Proof. rewrite !known_valid. apply known_known. Qed.

Lemma adds_day tot : adds_known tot -> day_sums_within tot.
Proof.
  intros HT l H. assert (H0 := H). destruct H as (L & M & NE). pose proof (Forall_moderate _ M) as F.
  destruct (HT l H0) as (k & K & A). pose proof u64_pos as U. pose proof (fsum_cap _ F) as [S0 _]. pose proof (known_length l) as KL.
  destruct (adds_err _ _ A) as (Ff & Lo & Up).
  - rewrite app_length, repeat_length. lia.
  - apply Forall_app. split; [|exact F]. apply Forall_forall. intros x Hx. apply repeat_spec in Hx. subst. exact fok_n0.
  - set (j := length (repeat 0%float k ++ known l)) in *. assert (LL : (j <= 48)%nat) by (unfold j; rewrite app_length, repeat_length; lia).
    rewrite fsum_zeros in Lo, Up.
    assert (I : 0 <= INR j <= 48) by (split; [apply pos_INR|apply (FiveRound.INR_le _ 48); lia]).
    destruct (pow_small j) as [P1 P2]; [unfold u64; lra|].
    assert (A1 : INR j * u64 <= 48 * u64) by (apply Rmult_le_compat_r; [unfold u64; lra|lra]).
    assert (L1 : fsum (known l) * (1 - 48 * u64) <= fval (tot l)) by (eapply Rle_trans; [|exact Lo]; apply Rmult_le_compat_l; lra).
    assert (U1 : fval (tot l) <= fsum (known l) * (1 + 96 * u64)) by (eapply Rle_trans; [exact Up|]; apply Rmult_le_compat_l; lra).
    split; [apply ffin_spec, Ff|]. split; [eapply Rle_trans; [|exact L1]; apply Rmult_le_pos; [exact S0|unfold u64; lra]|].
    fold (fsum (known l)). unfold u64 in *. apply Rabs_le. lra.
Qed.
Lemma kahan_day : day_sums_within kahan.
Proof.
  intros l (L & M & NE). pose proof (Forall_moderate _ M) as F. pose proof (known_length l) as KL.
  assert (I0 : kinv 0 0 (0%float, 0%float)).
  { unfold kinv. cbn [fst snd INR]. change (fval 0%float) with 0. split; [exact ffin_zero|]. split; [exact ffin_zero|].
    split; [lra|]. rewrite Rminus_0_r, Rabs_R0. lra. }
  pose proof (kahan_inv _ F 0 0 (0%float, 0%float) ltac:(lia) ltac:(lra) ltac:(cbn; lra) I0) as (Fk & _ & P & E & _).
  cbn [plus] in E. rewrite Rplus_0_l in E. unfold kahan. rewrite known_valid. pose proof (fsum_cap _ F) as [S0 _].
  split; [apply ffin_spec, Fk|]. split; [exact P|]. eapply Rle_trans; [exact E|]. apply Rmult_le_compat_r; [exact S0|].
  assert (INR (length (known l)) <= 24) by (apply (FiveRound.INR_le _ 24); lia). unfold u64. lra.
Qed.
Lemma left_to_right_day : adds_known (nansum (T := float)).
Proof. intros l _. exists 1%nat. split; [lia|]. unfold nansum. rewrite known_valid. exact (adds_left (known l) [0%float] 0%float (adds_one _)). Qed.

(** dividing a sum by a small whole number *)
Lemma part_of_sum l t z : hourly_day l -> (1 <= z <= 60)%Z -> ffin t -> 0 <= fval t ->
  Rabs (fval t - fsum (known l)) <= 28 / 10 ^ 15 * fsum (known l) ->
  ffin (t / n_ofZ z)%float /\ 0 <= fval (t / n_ofZ z)%float /\
  Rabs (fval (t / n_ofZ z)%float - fsum (known l) / IZR z) <= 3 / 10 ^ 14 * (fsum (known l) / IZR z) + 1 / 10 ^ 300.
Proof.
  intros (L & M & NE) Z1 Ft T0 E. apply Forall_moderate in M. pose proof (fsum_cap _ M) as [S0 SC]. pose proof (known_length l) as KL.
  destruct (ofZ_val z) as [_ V]; [lia|].
  assert (SC' : fsum (known l) <= 24 * cap).
  { eapply Rle_trans; [exact SC|]. apply Rmult_le_compat_r; [unfold cap; apply bpow_ge_0|]. apply (FiveRound.INR_le _ 24); lia. }
  pose proof (bpow_gt_0 radix2 900) as C0. fold cap in C0. pose proof cap_1 as C1.
  assert (ZP : 1 <= IZR z) by (apply IZR_le; lia).
  assert (IP : 0 < / IZR z <= 1) by (split; [apply Rinv_0_lt_compat; lra|rewrite <- Rinv_1; apply Rinv_le; lra]).
  apply Rabs_le_inv in E. pose proof eta64_small as ES.
  assert (Q : 0 <= fval t / IZR z <= fval t).
  { unfold Rdiv. split; [apply Rmult_le_pos; lra|]. rewrite <- (Rmult_1_r (fval t)) at 2. apply Rmult_le_compat_l; lra. }
  pose proof (rnd_err_nn (fval t / IZR z) (proj1 Q)) as R.
  destruct (fdiv_correct t (n_ofZ z) Ft) as [ED FD]; [rewrite V; lra| |].
  { rewrite V. apply rnd_in_range. rewrite Rabs_pos_eq by lra. lra. }
  rewrite V in ED. split; [exact FD|]. rewrite ED. split; [apply rnd_nonneg; lra|].
  apply Rabs_le_inv in R. set (s := fsum (known l)) in *. set (i := / IZR z) in *. unfold Rdiv in *. fold i in R, Q |- *.
  assert (E1 : fval t * i - s * i <= 28 * / 10 ^ 15 * (s * i)) by (replace (28 * / 10 ^ 15 * (s * i)) with (28 * / 10 ^ 15 * s * i) by ring; replace (fval t * i - s * i) with ((fval t - s) * i) by ring; apply Rmult_le_compat_r; lra).
  assert (E2 : - (28 * / 10 ^ 15 * (s * i)) <= fval t * i - s * i) by (replace (- (28 * / 10 ^ 15 * (s * i))) with (- (28 * / 10 ^ 15 * s) * i) by ring; replace (fval t * i - s * i) with ((fval t - s) * i) by ring; apply Rmult_le_compat_r; lra).
  assert (S1 : 0 <= s * i) by (apply Rmult_le_pos; lra).
  set (y := s * i) in *. set (x := fval t * i) in *. apply Rabs_le. unfold u64 in *. lra.
Qed.

(** the mean of a day *)
Lemma mean_day tot l : day_sums_within tot -> hourly_day l ->
  ffin (mean_with tot l) /\ 0 <= fval (mean_with tot l) /\
  Rabs (fval (mean_with tot l) - Rmean (map fval (known l))) <= 3 / 10 ^ 14 * Rmean (map fval (known l)) + 1 / 10 ^ 300.
Proof.
  intros HT H. destruct (HT l H) as (Ft & T0 & E). apply ffin_spec in Ft.
  assert (EM : mean_with tot l = (tot l / n_ofZ (Z.of_nat (length (known l))))%float).
  { unfold mean_with. rewrite known_valid. destruct H as (_ & _ & NE). destruct (known l); [contradiction|reflexivity]. }
  rewrite EM. pose proof (known_length l) as KL.
  assert (ZR : (1 <= Z.of_nat (length (known l)) <= 60)%Z). { destruct H as (L & _ & NE). destruct (known l); [contradiction|]. cbn [length] in *. lia. }
  destruct (part_of_sum l (tot l) _ H ZR Ft T0 E) as (A & B & C). split; [exact A|]. split; [exact B|].
  unfold Rmean. rewrite map_length, INR_IZR_INZ. exact C.
Qed.
Lemma extremes_day l : hourly_day l ->
  In (nanmin l) (known l) /\ In (nanmax l) (known l) /\ forall y, In y (known l) -> fval (nanmin l) <= fval y <= fval (nanmax l).
Proof.
  intros (L & M & NE). assert (F : Forall ffin (known l)) by (eapply Forall_impl; [|exact (Forall_moderate _ M)]; intros x ((Fx & _) & _); exact Fx).
  assert (E1 : nanmin l = nanmin (known l)) by (unfold nanmin; rewrite valid_known; reflexivity).
  assert (E2 : nanmax l = nanmax (known l)) by (unfold nanmax; rewrite valid_known; reflexivity).
  rewrite E1, E2. destruct (nanmin_float (known l) NE F) as [A B]. destruct (nanmax_float (known l) NE F) as [C D].
  split; [exact A|]. split; [exact C|]. intros y Hy. split; [apply B, Hy|apply D, Hy].
Qed.
