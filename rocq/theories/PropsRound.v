(** Property C94: in binary64 arithmetic the hours of a day add up to the daily amount up to rounding. *)
From Coq Require Import ZArith List Bool Lia Reals Lra Floats.
From Verif Require Import Py Num Cal Series UtilModel SpecBase CascadeModel PrecipModel SpecCascade
  F64 CascadeProofs CascadeSteps CascadeExact CascadeFloat CascadeWitness CascadeRound EqualProofs PropsCascade.
Import ListNotations.
Open Scope Z_scope.

(** the real number a double stands for, missing counted as zero *)
Definition amount_of (a : float) : R := if PrimFloat.is_nan a then 0%R else fval a.

Lemma fval_fill0 a : fval (fill0 a) = amount_of a.
Proof.
  unfold fill0, amount_of. change (n_isnan a) with (PrimFloat.is_nan a). destruct (PrimFloat.is_nan a); reflexivity.
Qed.
Lemma qsum_fill0 amounts k : (k <= length amounts)%nat -> qsum (map fill0 amounts) k = Rsum (map amount_of (firstn k amounts)).
Proof.
  intro H. assert (E := qsum_block (map fill0 amounts) 0 k ltac:(rewrite map_length; exact H)). cbn [plus skipn] in E.
  replace (qsum (map fill0 amounts) 0) with 0%R in E by reflexivity. rewrite Rminus_0_r in E. rewrite E. unfold fsum.
  f_equal. rewrite firstn_map, map_map. apply map_ext. exact fval_fill0.
Qed.

Theorem C94_cascade_up_to_rounding e d0 amounts arg lvl draws pos out :
  (Z.of_nat (length amounts) <= 1000000)%Z ->
  Forall famount_ok amounts ->
  disagg_prec_cascade e (daily d0 amounts) arg true lvl 0 draws pos = Ok (Some out) ->
  forall i a, nth_error amounts i = Some a -> PrimFloat.is_nan a = false ->
  (Rabs (Rsum (map fval (values_on (d0 + Z.of_nat i) out)) - fval a)
   <= 2 / 10 ^ 14 * Rsum (map amount_of (firstn (S i) amounts)) + 1 / 10 ^ 300)%R.
Proof.
  intros Hn HA H i a Hi En.
  destruct (cascade_hourly_inv _ _ _ _ _ _ _ _ _ H) as (Hlen & boxes & R0 & ->).
  rewrite Z.eqb_refl. cbv zeta.
  pose proof (hourly_boxes_length _ _ _ R0) as HL.
  rewrite zero_missing_values in R0.
  rewrite (restored_day d0 amounts _ i _ HL Hi). change (n_isnan a) with (PrimFloat.is_nan a). rewrite En.
  assert (Hi' : (i < length amounts)%nat) by (apply nth_error_Some; congruence).
  assert (FA : Forall fok (map fill0 amounts)).
  { rewrite Forall_map. eapply Forall_impl; [|exact HA]. exact fill0_f64. }
  pose proof (day_err (length amounts) (map fill0 amounts) boxes i (map_length _ _) FA R0 Hn Hi') as D.
  rewrite qsum_fill0 in D by lia.
  replace (qv (map fill0 amounts) i) with (fval a) in D; [exact D|].
  unfold qv. erewrite nth_error_nth by (rewrite nth_error_map, Hi; reflexivity). rewrite fval_fill0. unfold amount_of. rewrite En. reflexivity.
Qed.
Print Assumptions C94_cascade_up_to_rounding.

(** the bound cannot be in terms of the day's own amount: after a huge amount a day of 1 mm comes back dry *)
Definition all_last : casc float := {|
  p01 := fun _ _ => 1%float; p10 := fun _ _ => 0%float; pxx := fun _ _ => 0%float;
  wxx := fun _ _ _ => 0%float;
  threshold := repeat 1%float 9; percentile := 50%float |}.
Theorem C94_own_amount_refuted : exists (out : series float),
  disagg_prec_cascade modern (daily 0 [0x1p60; 1]%float) (COne all_last) true 9 0 (fun _ => 0%float) 0 = Ok (Some out) /\
  values_on 1 out = repeat 0%float 24.
Proof.
  (destruct (disagg_prec_cascade modern (daily 0 [0x1p60; 1]%float) (COne all_last) true 9 0 (fun _ => 0%float) 0) as [[out|]|] eqn:E;
    [|vm_compute in E; discriminate E|vm_compute in E; discriminate E]).
  exists out. split; [reflexivity|]. vm_compute in E. injection E as <-. vm_compute. reflexivity.
Qed.
Print Assumptions C94_own_amount_refuted.

(** ** equal distribution *)
Lemma fval_24 : fval (n_ofZ 24) = 24%R.
Proof. unfold fval. vm_compute. lra. Qed.
Theorem C94_equal_up_to_rounding e d0 (amounts : list float) opts master z shft draws pos out :
  disagg_prec e (DFrame (Some (daily d0 amounts))) MEqual opts master z shft draws pos = Ok (Some out) ->
  forall i a, nth_error amounts i = Some a -> (PrimFloat.is_finite a && (0 <=? a))%float = true ->
  (Rabs (Rsum (map fval (values_on (d0 + Z.of_nat i) out)) - fval a) <= 1 / 10 ^ 15 * fval a + 1 / 10 ^ 300)%R.
Proof.
  intros H i a Hi Ha. rewrite andb_true_iff in Ha. destruct Ha as [Fa Pa].
  assert (NE : amounts <> []) by (intros ->; destruct i; discriminate Hi).
  destruct (distribute_divided (T := float) (N := Num_f64) eq_refl e d0 amounts NE) as (out' & E & _ & D).
  unfold disagg_prec in H. rewrite E in H. cbn [bind] in H. injection H as <-.
  destruct (D i a Hi) as [L V]. apply ffin_spec in Fa.
  assert (En : n_isnan a = false).
  { cbn [n_isnan Num_f64]. unfold f64_isnan. destruct (feqb_correct a a Fa Fa) as [|C]; [reflexivity|exfalso; apply C; reflexivity]. }
  rewrite En in V. rewrite V. clear V L D E.
  destruct (fleb_correct 0%float a (proj2 (ffin_spec 0%float) eq_refl) Fa) as [A0|]; [|discriminate]. change (fval 0%float) with 0%R in A0.
  assert (Q0 : (0 <= fval a / 24)%R) by lra. assert (Q1 : (fval a / 24 <= fval a)%R) by lra.
  assert (Eh : fval (a / n_ofZ 24)%num = rnd (fval a / 24)).
  { cbn [n_div Num_f64]. rewrite <- fval_24. apply fdiv_correct; rewrite ?fval_24; [exact Fa|lra|exact (abs_small _ a Q0 Q1)]. }
  pose proof (rnd_err_nn _ Q0) as R. rewrite <- Eh in R. pose proof u64_pos as U. pose proof eta64_small as ES.
  assert (X : (u64 * (fval a / 24) <= 1 / 10 ^ 15 * (fval a / 24))%R) by (apply Rmult_le_compat_r; lra).
  replace (Rsum (map fval (repeat (a / n_ofZ 24)%num 24))) with (24 * fval (a / n_ofZ 24)%num)%R by (unfold Rsum; cbn [repeat map fold_right]; ring).
  apply Flocq.Core.Raux.Rabs_le_inv in R. apply Rabs_le. pose proof eta64_pos. lra.
Qed.
Print Assumptions C94_equal_up_to_rounding.

Example C94_met : (Z.of_nat (length ex_famounts) <= 1000000)%Z /\ Forall famount_ok ex_famounts /\ nth_error ex_famounts 3 = Some 0x1.3333333333333p0%float /\
  (exists out, disagg_prec_cascade modern (daily 0 ex_famounts) (COne ex_eighths) true 9 0 (fun _ => umax) 0 = Ok (Some out)) /\
  exists out, disagg_prec modern (DFrame (Some (daily 0 ex_famounts))) MEqual None [] false 0 (fun _ => 0%float) 0 = Ok (Some out).
Proof.
  split; [cbn; lia|]. split; [exact ex_famounts_ok|]. split; [reflexivity|]. split; [exact C02_C03_C04_met|].
  destruct (distribute_divided (T := float) (N := Num_f64) eq_refl modern 0 ex_famounts ltac:(discriminate)) as (out & E & _).
  exists out. unfold disagg_prec. rewrite E. reflexivity.
Qed.
