(** Rounding errors of the master-station method in binary64. *)
From Coq Require Import ZArith List Bool Lia Reals Lra Floats Permutation.
From Flocq Require Import Core Relative Plus_error.
From Verif Require Import Py Num Series SpecBase F64 CascadeFloat CascadeRound SpecMasterRound.
Import ListNotations.
Open Scope R_scope.
Notation float := PrimFloat.float (only parsing).

Lemma fsum_perm l1 l2 : Permutation l1 l2 -> fsum l1 = fsum l2.
Proof. unfold fsum, Rsum. induction 1; cbn [map fold_right] in *; lra. Qed.

Lemma rnd_plus x y : 0 <= fval x -> 0 <= fval y ->
  (fval x + fval y) * (1 - u64) <= rnd (fval x + fval y) <= (fval x + fval y) * (1 + u64).
Proof.
  intros Hx Hy.
  destruct (@FLT_plus_error_N_ex radix2 (-1074) 53 eq_refl (fun z => negb (Z.even z)) (fval x) (fval y) (fval_format x) (fval_format y))
    as (eps & He & E).
  change (round radix2 (FLT_exp (-1074) 53) ZnearestE (fval x + fval y)) with (rnd (fval x + fval y)) in E. rewrite E.
  assert (B : Rabs eps <= u64).
  { eapply Rle_trans; [exact He|]. unfold u_ro. change (bpow radix2 (- (53) + 1)) with (/ 4503599627370496). unfold u64. lra. }
  apply Rabs_le_inv in B. split; apply Rmult_le_compat_l; lra.
Qed.

Lemma fsum_cap l : Forall fok l -> 0 <= fsum l <= INR (length l) * cap.
Proof.
  induction 1 as [|x l ((_ & P) & C) _ IH]; unfold fsum, Rsum in *; cbn [map fold_right length]; [cbn; lra|].
  rewrite S_INR. lra.
Qed.

Lemma adds_nonempty l x : adds l x -> (1 <= length l)%nat.
Proof. induction 1 as [|l1 l2 l a b _ I1 _ I2 P]; [cbn; lia|]. rewrite (Permutation_length P), app_length. lia. Qed.

Lemma adds_err l x : adds l x -> (length l <= 1000)%nat -> Forall fok l ->
  ffin x /\ fsum l * (1 - INR (length l) * u64) <= fval x <= fsum l * (1 + u64) ^ length l.
Proof.
  pose proof u64_pos as U.
  induction 1 as [x|l1 l2 l a b H1 I1 H2 I2 P]; intros L F.
  - inversion F as [|? ? ((Fx & Px) & _) _]; subst. split; [exact Fx|]. unfold fsum, Rsum. cbn [map fold_right length INR pow]. nra.
  - pose proof (Permutation_length P) as PL. rewrite app_length in PL.
    assert (F' : Forall fok (l1 ++ l2)) by (eapply Permutation_Forall; eassumption).
    apply Forall_app in F'. destruct F' as [F1 F2].
    destruct (I1 ltac:(lia) F1) as (Fa & La & Ua). destruct (I2 ltac:(lia) F2) as (Fb & Lb & Ub).
    pose proof (fsum_cap l1 F1) as [S1 C1]. pose proof (fsum_cap l2 F2) as [S2 C2].
    pose proof (adds_nonempty _ _ H1) as N1. pose proof (adds_nonempty _ _ H2) as N2.
    rewrite (fsum_perm _ _ P), fsum_app, PL.
    assert (K1 : INR (length l1) <= 1000) by (change 1000 with (IZR (Z.of_nat 1000)); rewrite <- INR_IZR_INZ; apply le_INR; lia).
    assert (K2 : INR (length l2) <= 1000) by (change 1000 with (IZR (Z.of_nat 1000)); rewrite <- INR_IZR_INZ; apply le_INR; lia).
    assert (M1 : 1 <= INR (length l1)) by (change 1 with (INR 1); apply le_INR; exact N1).
    assert (M2 : 1 <= INR (length l2)) by (change 1 with (INR 1); apply le_INR; exact N2).
    assert (Q1 : 0 <= 1 - INR (length l1) * u64) by (unfold u64; lra).
    assert (Q2 : 0 <= 1 - INR (length l2) * u64) by (unfold u64; lra).
    assert (A0 : 0 <= fval a) by (eapply Rle_trans; [|exact La]; apply Rmult_le_pos; assumption).
    assert (B0 : 0 <= fval b) by (eapply Rle_trans; [|exact Lb]; apply Rmult_le_pos; assumption).
    assert (G : forall n m : nat, (n <= m)%nat -> (1 + u64) ^ n <= (1 + u64) ^ m) by (intros n m H; apply Rle_pow; [lra|exact H]).
    set (n1 := length l1) in *. set (n2 := length l2) in *.
    assert (T : fval a + fval b <= (fsum l1 + fsum l2) * (1 + u64) ^ (n1 + n2 - 1)).
    { assert (fsum l1 * (1 + u64) ^ n1 <= fsum l1 * (1 + u64) ^ (n1 + n2 - 1)) by (apply Rmult_le_compat_l; [exact S1|apply G; lia]).
      assert (fsum l2 * (1 + u64) ^ n2 <= fsum l2 * (1 + u64) ^ (n1 + n2 - 1)) by (apply Rmult_le_compat_l; [exact S2|apply G; lia]).
      lra. }
    pose proof (rnd_plus a b A0 B0) as [RL RU].
    assert (UP : rnd (fval a + fval b) <= (fsum l1 + fsum l2) * (1 + u64) ^ (n1 + n2)).
    { eapply Rle_trans; [exact RU|]. replace (n1 + n2)%nat with (S (n1 + n2 - 1)) by lia. cbn [pow].
      replace ((fsum l1 + fsum l2) * ((1 + u64) * (1 + u64) ^ (n1 + n2 - 1))) with ((fsum l1 + fsum l2) * (1 + u64) ^ (n1 + n2 - 1) * (1 + u64)) by ring.
      apply Rmult_le_compat_r; [lra|exact T]. }
    assert (OV : Rabs (rnd (fval a + fval b)) < big).
    { rewrite Rabs_pos_eq by (apply rnd_nonneg; lra). eapply Rle_lt_trans; [exact UP|].
      assert (PW : (1 + u64) ^ (n1 + n2) <= 2).
      { eapply Rle_trans; [apply (pow_small (n1 + n2)); rewrite plus_INR; unfold u64 in *; lra|]. rewrite plus_INR. unfold u64. lra. }
      assert (0 < cap) by apply bpow_gt_0.
      assert ((fsum l1 + fsum l2) * (1 + u64) ^ (n1 + n2) <= 4000 * cap).
      { assert (INR n1 * cap <= 1000 * cap) by (apply Rmult_le_compat_r; lra). assert (INR n2 * cap <= 1000 * cap) by (apply Rmult_le_compat_r; lra). assert (fsum l1 + fsum l2 <= 2000 * cap) by lra. assert (1 <= (1 + u64) ^ (n1 + n2)) by (apply pow_R1_Rle; lra). nra. }
      eapply Rle_lt_trans; [eassumption|]. pose proof (cap_lt_big 4000 ltac:(lia)). lra. }
    destruct (fadd_correct a b Fa Fb OV) as [-> FF]. split; [exact FF|]. split; [|exact UP].
    eapply Rle_trans; [|exact RL]. rewrite plus_INR. fold n1 n2 in M1, M2, K1, K2, La, Lb.
    assert (E1 : fsum l1 * (1 - (INR n1 + INR n2) * u64) <= fval a * (1 - u64)).
    { apply Rle_trans with (fsum l1 * (1 - INR n1 * u64) * (1 - u64)); [|apply Rmult_le_compat_r; lra].
      rewrite Rmult_assoc. apply Rmult_le_compat_l; [exact S1|]. assert (0 <= INR n1 * (u64 * u64)) by nra. nra. }
    assert (E2 : fsum l2 * (1 - (INR n1 + INR n2) * u64) <= fval b * (1 - u64)).
    { apply Rle_trans with (fsum l2 * (1 - INR n2 * u64) * (1 - u64)); [|apply Rmult_le_compat_r; lra].
      rewrite Rmult_assoc. apply Rmult_le_compat_l; [exact S2|]. assert (0 <= INR n2 * (u64 * u64)) by nra. nra. }
    lra.
Qed.

Lemma sum_err (f : float -> float) kap c e l : (forall m, In m l -> Rabs (fval (f m) - kap * fval m) <= c * fval m + e) ->
  Rabs (fsum (map f l) - kap * fsum l) <= c * fsum l + INR (length l) * e.
Proof.
  induction l as [|m l IH]; intro H.
  - unfold fsum, Rsum. cbn. rewrite !Rmult_0_r, Rminus_0_r, Rabs_R0. lra.
  - assert (A := H m (or_introl eq_refl)). assert (B := IH (fun x Hx => H x (or_intror Hx))).
    unfold fsum, Rsum in *. cbn [map fold_right]. cbn [length]. rewrite S_INR.
    apply Rabs_le_inv in A. apply Rabs_le_inv in B. apply Rabs_le. lra.
Qed.

Lemma fsum_In l m : Forall fok l -> In m l -> fval m <= fsum l.
Proof.
  intros F. induction F as [|x l ((_ & P) & _) F IH]; intros []; unfold fsum, Rsum in *; cbn [map fold_right].
  - subst. pose proof (fsum_cap l F) as [K _]. unfold fsum, Rsum in K. lra.
  - specialize (IH H). lra.
Qed.
Lemma fsum_zeros k l : fsum (repeat 0%float k ++ l) = fsum l.
Proof.
  induction k as [|k IH]; [reflexivity|]. unfold fsum, Rsum in *. cbn [repeat app map fold_right]. rewrite IH.
  change (fval 0%float) with 0. lra.
Qed.

Lemma day_total k ms sm : Forall fok ms -> length ms = 24%nat -> (k <= 24)%nat -> adds (repeat 0%float k ++ ms) sm ->
  ffin sm /\ fsum ms * (1 - 100 * u64) <= fval sm <= fsum ms * (1 + 100 * u64).
Proof.
  intros F L K A. pose proof u64_pos as U.
  assert (LL : length (repeat 0%float k ++ ms) = (k + 24)%nat) by (rewrite app_length, repeat_length, L; reflexivity).
  destruct (adds_err _ _ A) as (Ff & Lo & Up).
  - lia.
  - apply Forall_app. split; [|exact F]. apply Forall_forall. intros x Hx. apply repeat_spec in Hx. subst. exact fok_n0.
  - rewrite fsum_zeros, LL in Lo, Up. pose proof (fsum_cap ms F) as [S0 _].
    assert (I : INR (k + 24) <= 48) by (replace 48 with (INR 48) by (cbn; lra); apply le_INR; lia).
    split; [exact Ff|]. split.
    + eapply Rle_trans; [|exact Lo]. apply Rmult_le_compat_l; [exact S0|]. nra.
    + eapply Rle_trans; [exact Up|]. apply Rmult_le_compat_l; [exact S0|].
      pose proof (pos_INR (k + 24)). eapply Rle_trans; [apply (pow_small (k + 24)); unfold u64; lra|]. nra.
Qed.

Lemma share_err m sm P S : fok m -> fok P -> ffin sm -> 0 < S -> fval m <= S ->
  S * (1 - 100 * u64) <= fval sm <= S * (1 + 100 * u64) ->
  fnn (m / sm * P)%float /\
  Rabs (fval (m / sm * P)%float - fval P / fval sm * fval m) <= 3 * u64 * (fval P / fval sm) * fval m + (2 * fval P * eta64 + eta64).
Proof.
  intros ((Fm & Pm) & _) ((FP & PP) & CP) Fs S0 mS (Lo & Up). pose proof u64_pos as U. pose proof eta64_pos as E0. pose proof eta_u as EU.
  assert (SP : S / 2 <= fval sm) by (unfold u64 in *; lra). assert (sp : 0 < fval sm) by lra.
  set (x := fval m / fval sm). assert (X0 : 0 <= x) by (apply Rmult_le_pos; [exact Pm|left; apply Rinv_0_lt_compat, sp]).
  assert (X2 : x <= 2). { unfold x. apply Rmult_le_reg_r with (fval sm); [exact sp|]. unfold Rdiv. rewrite Rmult_assoc, Rinv_l by lra. lra. }
  assert (T4 : 4 * cap < big) by (apply (cap_lt_big 4); lia).
  assert (C1 : 1 <= cap) by (unfold cap; change 1 with (bpow radix2 0); apply bpow_le; lia).
  pose proof (rnd_err_nn x X0) as RX. apply Rabs_le_inv in RX.
  assert (uu : u64 * u64 <= u64 / 1000) by (unfold u64; lra).
  assert (ux : u64 * x <= 2 * u64) by (apply Rle_trans with (u64 * 2); [apply Rmult_le_compat_l; lra|lra]).
  assert (ux0 : 0 <= u64 * x) by (apply Rmult_le_pos; lra).
  assert (Q0 : 0 <= rnd x) by (apply rnd_nonneg; exact X0).
  assert (Q3 : rnd x <= 3) by (unfold u64 in *; lra).
  destruct (fdiv_correct m sm Fm ltac:(lra)) as (EQ & FQ). { fold x. rewrite Rabs_pos_eq by exact Q0. lra. }
  fold x in EQ. set (q := (m / sm)%float) in *.
  assert (Y0 : 0 <= fval q * fval P) by (rewrite EQ; apply Rmult_le_pos; assumption).
  assert (Y3 : fval q * fval P <= 3 * cap).
  { rewrite EQ. apply Rmult_le_compat; try assumption. }
  pose proof (rnd_err_nn _ Y0) as RY. apply Rabs_le_inv in RY.
  assert (uy : u64 * (fval q * fval P) <= cap / 2).
  { apply Rle_trans with (u64 * (3 * cap)); [apply Rmult_le_compat_l; lra|]. unfold u64. lra. }
  assert (e1 : eta64 <= 1 / 4) by (unfold u64 in *; lra).
  destruct (fmul_correct q P FQ FP) as (EH & FH). { rewrite Rabs_pos_eq by (apply rnd_nonneg; exact Y0). lra. }
  split; [split; [exact FH|rewrite EH; apply rnd_nonneg; exact Y0]|].
  rewrite EH. replace (fval P / fval sm * fval m) with (x * fval P) by (unfold x; field; lra).
  replace (3 * u64 * (fval P / fval sm) * fval m) with (3 * (u64 * x) * fval P) by (unfold x; field; lra).
  assert (D1 : x * fval P - (u64 * x + eta64) * fval P <= fval q * fval P <= x * fval P + (u64 * x + eta64) * fval P).
  { rewrite EQ. split.
    - replace (x * fval P - (u64 * x + eta64) * fval P) with ((x - (u64 * x + eta64)) * fval P) by ring. apply Rmult_le_compat_r; lra.
    - replace (x * fval P + (u64 * x + eta64) * fval P) with ((x + (u64 * x + eta64)) * fval P) by ring. apply Rmult_le_compat_r; lra. }
  assert (D2 : u64 * (fval q * fval P) <= 2 * (u64 * x) * fval P + eta64 * fval P).
  { apply Rle_trans with (u64 * (x * fval P + (u64 * x + eta64) * fval P)); [apply Rmult_le_compat_l; lra|].
    replace (u64 * (x * fval P + (u64 * x + eta64) * fval P)) with ((u64 * x + u64 * (u64 * x) + u64 * eta64) * fval P) by ring.
    replace (2 * (u64 * x) * fval P + eta64 * fval P) with ((2 * (u64 * x) + eta64) * fval P) by ring.
    apply Rmult_le_compat_r; [exact PP|].
    assert (u64 * (u64 * x) <= 1 * (u64 * x)) by (apply Rmult_le_compat_r; lra).
    assert (u64 * eta64 <= 1 * eta64) by (apply Rmult_le_compat_r; lra). lra. }
  apply Rabs_le. lra.
Qed.

Lemma master_day_err k ms sm P : Forall fok ms -> length ms = 24%nat -> (k <= 24)%nat -> adds (repeat 0%float k ++ ms) sm ->
  0 < fsum ms -> fok P ->
  0 < fval sm /\ Forall fnn (map (fun m => m / sm * P)%float ms) /\
  Rabs (fsum (map (fun m => m / sm * P)%float ms) - fval P) <= 3 / 10 ^ 14 * fval P + 1 / 10 ^ 300.
Proof.
  intros F L K A S0 HP. destruct (day_total k ms sm F L K A) as (Fs & B). pose proof B as (Lo & Up).
  pose proof u64_pos as U. pose proof eta64_pos as E0. pose proof eta64_small as ES. pose proof eta_u as EU.
  assert (SP : fsum ms / 2 <= fval sm) by (unfold u64 in *; lra). assert (sp : 0 < fval sm) by lra.
  destruct HP as ((FP & PP) & CP). split; [exact sp|]. split.
  - rewrite Forall_map. rewrite Forall_forall in F |- *. intros m Hm.
    refine (proj1 (share_err m sm P (fsum ms) (F m Hm) (conj (conj FP PP) CP) Fs S0 _ B)). apply fsum_In; [apply Forall_forall; exact F|exact Hm].
  - pose proof (sum_err (fun m => m / sm * P)%float (fval P / fval sm) (3 * u64 * (fval P / fval sm)) (2 * fval P * eta64 + eta64) ms) as H.
    rewrite L in H. replace (INR 24) with 24 in H by (cbn; lra).
    assert (H' : Rabs (fsum (map (fun m => m / sm * P)%float ms) - fval P / fval sm * fsum ms)
                 <= 3 * u64 * (fval P / fval sm) * fsum ms + 24 * (2 * fval P * eta64 + eta64)).
    { apply H. intros m Hm. rewrite Forall_forall in F.
      refine (proj2 (share_err m sm P (fsum ms) (F m Hm) (conj (conj FP PP) CP) Fs S0 _ B)). apply fsum_In; [apply Forall_forall; exact F|exact Hm]. }
    clear H. set (r := fsum ms / fval sm).
    assert (R1 : 1 - 200 * u64 <= r <= 1 + 200 * u64).
    { unfold r. split; apply Rmult_le_reg_r with (fval sm); try exact sp; unfold Rdiv; rewrite Rmult_assoc, Rinv_l by lra; rewrite Rmult_1_r.
      - apply Rle_trans with ((1 - 200 * u64) * (fsum ms * (1 + 100 * u64))); [apply Rmult_le_compat_l; [unfold u64; lra|exact Up]|].
        replace ((1 - 200 * u64) * (fsum ms * (1 + 100 * u64))) with (fsum ms * ((1 - 200 * u64) * (1 + 100 * u64))) by ring.
        rewrite <- (Rmult_1_r (fsum ms)) at 2. apply Rmult_le_compat_l; [lra|]. unfold u64. lra.
      - apply Rle_trans with ((1 + 200 * u64) * (fsum ms * (1 - 100 * u64))); [|apply Rmult_le_compat_l; [unfold u64; lra|exact Lo]].
        replace ((1 + 200 * u64) * (fsum ms * (1 - 100 * u64))) with (fsum ms * ((1 + 200 * u64) * (1 - 100 * u64))) by ring.
        rewrite <- (Rmult_1_r (fsum ms)) at 1. apply Rmult_le_compat_l; [lra|]. unfold u64. lra. }
    replace (fval P / fval sm * fsum ms) with (r * fval P) in H' by (unfold r; field; lra).
    replace (3 * u64 * (fval P / fval sm) * fsum ms) with (3 * u64 * r * fval P) in H' by (unfold r; field; lra).
    assert (B1 : (1 - 200 * u64) * fval P <= r * fval P <= (1 + 200 * u64) * fval P) by (split; apply Rmult_le_compat_r; lra).
    assert (B2 : 3 * u64 * r * fval P <= 6 * u64 * fval P).
    { apply Rmult_le_compat_r; [exact PP|]. apply Rle_trans with (3 * u64 * 2); [apply Rmult_le_compat_l; unfold u64 in *; lra|lra]. }
    assert (B3 : fval P * eta64 <= fval P * (u64 * u64)) by (apply Rmult_le_compat_l; assumption).
    assert (B4 : fval P * (u64 * u64) <= fval P * (u64 / 1000)) by (apply Rmult_le_compat_l; [exact PP|unfold u64; lra]).
    apply Rabs_le_inv in H'. apply Rabs_le. unfold u64 in *. lra.
Qed.
