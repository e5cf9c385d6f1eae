(** Rounding errors of the cascade in binary64: how far the hours of a day are from its amount. *)
From Coq Require Import ZArith List Bool Lia Reals Lra Floats.
From Flocq Require Import Core Relative.
From Verif Require Import Py Num Cal Series UtilModel SpecBase TimeProofs CascadeModel PrecipModel SpecCascade
  CascadeProofs CascadeExact F64 CascadeFloat.
Import ListNotations.
Open Scope R_scope.
Notation float := PrimFloat.float (only parsing).

(** unit roundoff and half of the smallest positive double *)
Definition u64 : R := / 9007199254740992.
Definition eta64 : R := / 2 * bpow radix2 (-1074).
Lemma u64_pos : 0 < u64 < 1 / 1000000000000000.
Proof. unfold u64. lra. Qed.
Lemma eta64_pos : 0 < eta64.
Proof. unfold eta64. pose proof (bpow_gt_0 radix2 (-1074)). lra. Qed.
Lemma eta64_small : 1000 * eta64 <= 1 / 10 ^ 300.
Proof.
  unfold eta64. change (bpow radix2 (-1074)) with (/ IZR (Z.pow_pos 2 1074)).
  assert (P : 0 < IZR (Z.pow_pos 2 1074)) by (apply IZR_lt; reflexivity).
  assert (Q : (0 < 10 ^ 300)%R) by (apply pow_lt; lra).
  apply Rmult_le_reg_r with (IZR (Z.pow_pos 2 1074) * 10 ^ 300); [apply Rmult_lt_0_compat; assumption|].
  replace (1000 * (/ 2 * / IZR (Z.pow_pos 2 1074)) * (IZR (Z.pow_pos 2 1074) * 10 ^ 300)) with (500 * 10 ^ 300) by (field; lra).
  replace (1 / 10 ^ 300 * (IZR (Z.pow_pos 2 1074) * 10 ^ 300)) with (IZR (Z.pow_pos 2 1074)) by (field; lra).
  change 10 with (IZR 10). rewrite pow_IZR, <- mult_IZR. apply IZR_le. vm_compute. discriminate.
Qed.

Lemma rnd_err a : Rabs (rnd a - a) <= u64 * Rabs a + eta64.
Proof.
  destruct (error_N_FLT radix2 (-1074) 53 eq_refl (fun x => negb (Z.even x)) a) as (eps & eta & H1 & H2 & _ & H4).
  change (round radix2 (FLT_exp (-1074) 53) ZnearestE a) with (rnd a) in H4. rewrite H4.
  replace (a * (1 + eps) + eta - a) with (eps * a + eta) by ring.
  eapply Rle_trans; [apply Rabs_triang|]. rewrite Rabs_mult. apply Rplus_le_compat; [|exact H2].
  apply Rmult_le_compat_r; [apply Rabs_pos|]. eapply Rle_trans; [exact H1|]. unfold u64.
  change (bpow radix2 (- (53) + 1)) with (/ 4503599627370496). lra.
Qed.
Lemma rnd_err_nn a : 0 <= a -> Rabs (rnd a - a) <= u64 * a + eta64.
Proof. intro H. pose proof (rnd_err a) as E. rewrite (Rabs_pos_eq a H) in E. exact E. Qed.

(** ** one box *)
Lemma eta_u : eta64 <= u64 * u64.
Proof.
  unfold eta64, u64. change (/ 9007199254740992) with (bpow radix2 (-53)). rewrite <- bpow_plus.
  change (/ 2) with (bpow radix2 (-1)). rewrite <- bpow_plus. apply bpow_le. lia.
Qed.
Lemma center_sum k : (k < 7)%nat -> Rabs (fval (class_center k) + fval (n1 - class_center k)%num - 1) <= 2 * u64.
Proof.
  intro Hk. destruct (center_unit k Hk) as ((F1 & U1) & (F2 & U2)).
  assert (E : fval (n1 - class_center k)%num = rnd (1 - fval (class_center k))).
  { cbn [n_sub Num_f64]. rewrite <- fval_one. apply fsub_correct; [exact ffin_one|exact F1|].
    apply abs_small with (x := n1); rewrite fval_one; lra. }
  rewrite E. assert (W0 : 0 <= 1 - fval (class_center k)) by lra. pose proof (rnd_err_nn _ W0) as H. pose proof eta_u as Hu. pose proof u64_pos as P.
  assert (u64 * (1 - fval (class_center k)) <= u64) by nra. assert (u64 * u64 <= u64) by nra.
  replace (fval (class_center k) + rnd (1 - fval (class_center k)) - 1) with (rnd (1 - fval (class_center k)) - (1 - fval (class_center k))) by ring. lra.
Qed.
Lemma fmul_err w x : ffin w -> 0 <= fval w <= 1 -> fnn x -> Rabs (fval (w * x)%float - fval w * fval x) <= u64 * (fval w * fval x) + eta64.
Proof.
  intros Hw Hr (Hx & Hx0). assert (A : 0 <= fval w * fval x) by nra. assert (B : fval w * fval x <= fval x) by nra.
  destruct (fmul_correct w x Hw Hx (abs_small _ x A B)) as [-> _]. apply rnd_err_nn, A.
Qed.
Lemma branch_err x a b : fok x -> branch x a b -> Rabs (fval a + fval b - fval x) <= 4 * u64 * fval x + 2 * eta64.
Proof.
  intros (Hx & _) B. pose proof eta64_pos as E0. pose proof u64_pos as U0. assert (X0 : 0 <= fval x) by apply Hx.
  assert (G : 0 <= 4 * u64 * fval x + 2 * eta64) by nra.
  inversion B as [H E1 E2|H E1 E2|H E1 E2|k H Hk E1 E2]; clear B; subst a b; rewrite ?fval_zero.
  - assert (fval x = 0).
    { cbn [n_ltb Num_f64] in H. destruct (fltb_correct n0 x ffin_zero (proj1 Hx)) as [L|L]; [discriminate|]. rewrite fval_zero in L. lra. }
    rewrite H0 in *. rewrite Rplus_0_r, Rminus_0_r, Rabs_R0. lra.
  - replace (0 + fval x - fval x) with 0 by ring. rewrite Rabs_R0. exact G.
  - replace (fval x + 0 - fval x) with 0 by ring. rewrite Rabs_R0. exact G.
  - destruct (center_unit k Hk) as ((F1 & U1) & (F2 & U2)). pose proof (center_sum k Hk) as CS.
    pose proof (fmul_err _ x F1 U1 Hx) as A1. pose proof (fmul_err _ x F2 U2 Hx) as A2. cbn [n_mul Num_f64].
    set (w := fval (class_center k)) in *. set (v := fval (n1 - class_center k)%num) in *.
    set (p := fval (class_center k * x)%float) in *. set (q := fval ((n1 - class_center k)%num * x)%float) in *.
    apply Rabs_le_inv in CS, A1, A2. apply Rabs_le.
    assert (D : - (2 * u64 * fval x) <= (w + v - 1) * fval x <= 2 * u64 * fval x) by nra.
    assert (F : u64 * ((w + v) * fval x) <= 2 * u64 * fval x) by (apply Rle_trans with (u64 * (2 * fval x)); [apply Rmult_le_compat_l; nra|lra]).
    split; nra.
Qed.

(** ** levels *)
Definition fsum (l : list float) : R := Rsum (map fval l).
Lemma fsum_app a b : fsum (a ++ b) = fsum a + fsum b.
Proof. unfold fsum. rewrite map_app. apply Rsum_app. Qed.
Fixpoint lvl_err (k : nat) : R * R :=
  match k with O => (0, 0) | S k => let (e, g) := lvl_err k in (4 * u64 + e * (1 + 4 * u64), 2 + 2 * e + 2 * g) end.
Lemma lvl_err_nn k : 0 <= fst (lvl_err k) /\ 0 <= snd (lvl_err k).
Proof. pose proof u64_pos. induction k as [|k IH]; cbn; [lra|]. destruct (lvl_err k) as [e g]. cbn in *. nra. Qed.
Lemma splits_nth (v m : list float) : splits v m -> forall i d, (i < length v)%nat -> branch (nth i v d) (nth (2 * i) m d) (nth (2 * i + 1) m d).
Proof.
  induction 1 as [|x a b v m B Sp IH]; intros i d Hi; [cbn in Hi; lia|]. destruct i as [|i]; [exact B|].
  rewrite nth_SS, nth_SS1. apply IH. cbn in Hi. lia.
Qed.
Lemma refines_err k : forall v out, Forall fok v -> refines k v out -> forall i d, (i < length v)%nat ->
  Rabs (fsum (chunk (2 ^ k) i out) - fval (nth i v d)) <= fst (lvl_err k) * fval (nth i v d) + snd (lvl_err k) * eta64.
Proof.
  induction k as [|k IH]; intros v out F R0 i d Hi; cbn [refines] in R0.
  - subst. cbn [Nat.pow lvl_err fst snd]. assert (E : chunk 1 i v = [nth i v d]).
    { unfold chunk. rewrite Nat.mul_1_l. revert i Hi. clear. induction v as [|x v IH]; intros i Hi; [cbn in Hi; lia|]. destruct i as [|i]; [reflexivity|].
      cbn [skipn nth]. apply IH. cbn in Hi. lia. }
    rewrite E. unfold fsum, Rsum. cbn [map fold_right]. replace (fval (nth i v d) + 0 - fval (nth i v d)) with 0 by ring. rewrite Rabs_R0. lra.
  - destruct R0 as (m & Sp & R0). destruct (splits_f64 _ _ F Sp) as [Fm _]. pose proof (splits_length _ _ Sp) as L.
    assert (FX : fok (nth i v d)) by (rewrite Forall_forall in F; apply F, nth_In, Hi).
    pose proof (branch_err _ _ _ FX (splits_nth _ _ Sp i d Hi)) as B.
    pose proof (IH _ _ Fm R0 (2 * i)%nat d ltac:(lia)) as A1. pose proof (IH _ _ Fm R0 (2 * i + 1)%nat d ltac:(lia)) as A2.
    rewrite Nat.pow_succ_r', chunk_double, fsum_app. cbn [lvl_err]. destruct (lvl_err_nn k) as [N1 N2]. destruct (lvl_err k) as [e g]. cbn [fst snd] in *.
    set (x := fval (nth i v d)) in *. set (a := fval (nth (2 * i) m d)) in *. set (b := fval (nth (2 * i + 1) m d)) in *.
    set (sa := fsum (chunk (2 ^ k) (2 * i) out)) in *. set (sb := fsum (chunk (2 ^ k) (2 * i + 1) out)) in *.
    apply Rabs_le_inv in B, A1, A2. apply Rabs_le.
    assert (E1 : e * a + e * b <= e * (x * (1 + 4 * u64) + 2 * eta64)) by (rewrite <- Rmult_plus_distr_l; apply Rmult_le_compat_l; lra).
    split; lra.
Qed.
Lemma five_levels : fst (lvl_err 5) <= 21 * u64 /\ snd (lvl_err 5) <= 63.
Proof. cbn [lvl_err fst snd]. unfold u64. lra. Qed.

(** ** quarter hours *)
Lemma fval_three : fval (n_ofZ 3) = 3.
Proof. unfold fval. vm_compute. lra. Qed.
Lemma quarter_err x : fok x -> Rabs (3 * fval (x / n_ofZ 3)%num - fval x) <= u64 * fval x + 3 * eta64.
Proof.
  intros ((Hx & Hx0) & _). cbn [n_div Num_f64].
  assert (A : 0 <= fval x / 3) by lra. assert (B : fval x / 3 <= fval x) by lra.
  destruct (fdiv_correct x (n_ofZ 3) Hx) as [-> _]; rewrite ?fval_three; [lra|apply (abs_small _ x A B)|].
  pose proof (rnd_err_nn _ A) as E. apply Rabs_le_inv in E. apply Rabs_le. lra.
Qed.
Lemma quarters_sum l : Forall fok l -> Rabs (fsum (to_quarters l) - fsum l) <= u64 * fsum l + 3 * INR (length l) * eta64.
Proof.
  induction 1 as [|x l Hx Hl IH].
  - unfold fsum, Rsum. cbn [map to_quarters flat_map fold_right length INR]. rewrite Rminus_0_r, Rabs_R0. lra.
  - change (to_quarters (x :: l)) with ([(x / n_ofZ 3)%num; (x / n_ofZ 3)%num; (x / n_ofZ 3)%num] ++ to_quarters l).
    rewrite fsum_app. change (fsum (x :: l)) with (fval x + fsum l). cbn [length]. rewrite S_INR.
    assert (E : fsum [(x / n_ofZ 3)%num; (x / n_ofZ 3)%num; (x / n_ofZ 3)%num] = 3 * fval (x / n_ofZ 3)%num) by (unfold fsum, Rsum; cbn [map fold_right]; ring).
    rewrite E. pose proof (quarter_err x Hx) as Q. apply Rabs_le_inv in IH, Q. apply Rabs_le. lra.
Qed.
Lemma skipn_quarters k : forall v : list float, skipn (3 * k) (to_quarters v) = to_quarters (skipn k v).
Proof.
  induction k as [|k IH]; intro v; [reflexivity|]. destruct v as [|x v]; [cbn [to_quarters flat_map]; rewrite !skipn_nil; reflexivity|].
  replace (3 * S k)%nat with (S (S (S (3 * k)))) by lia. apply IH.
Qed.
Lemma firstn_quarters k : forall v : list float, firstn (3 * k) (to_quarters v) = to_quarters (firstn k v).
Proof.
  induction k as [|k IH]; intro v; [reflexivity|]. destruct v as [|x v]; [cbn [to_quarters flat_map]; rewrite !firstn_nil; reflexivity|].
  replace (3 * S k)%nat with (S (S (S (3 * k)))) by lia. cbn [to_quarters flat_map app firstn]. do 3 f_equal. apply IH.
Qed.

(** ** running sums *)
Lemma fadd_capped_eq acc x k : (0 <= k < 2 ^ 53)%Z ->
  fnn acc -> fval acc <= IZR k * cap -> fnn x -> fval x <= cap -> fval (acc + x)%float = rnd (fval acc + fval x).
Proof.
  intros Hk (Ha & Ha0) Hac (Hx & Hx0) Hxc.
  assert (A : 0 <= fval acc + fval x) by lra.
  assert (B : fval acc + fval x <= IZR (k + 1) * cap) by (rewrite plus_IZR; lra).
  apply fadd_correct; [assumption|assumption|]. rewrite Rabs_pos_eq by (apply rnd_nonneg, A).
  apply Rle_lt_trans with (IZR (k + 1) * cap); [|apply cap_lt_big; lia].
  rewrite <- (round_generic radix2 fexp64 ZnearestE (IZR (k + 1) * cap)) by (apply cap_format; lia). apply rnd_le, B.
Qed.
Lemma cumsum_from_eq q : Forall fok q -> forall acc k0, (0 <= k0)%Z -> (k0 + Z.of_nat (length q) <= 2 ^ 53)%Z ->
  fnn acc -> fval acc <= IZR k0 * cap -> forall k d, (k < length q)%nat ->
    fval (nth k (cumsum_from acc q) d) = rnd (fval (match k with O => acc | S k' => nth k' (cumsum_from acc q) d end) + fval (nth k q d)).
Proof.
  induction 1 as [|x q Hx Hq IH]; intros acc k0 H0 HL Ha Hc k d Hk; [cbn in Hk; lia|].
  cbn [length] in HL, Hk. cbn [cumsum_from]. destruct Hx as [Hx Hxc].
  destruct (fadd_capped acc x k0 ltac:(lia) Ha Hc Hx Hxc) as (A1 & A2 & A3 & A4).
  destruct k as [|k]; [exact (fadd_capped_eq acc x k0 ltac:(lia) Ha Hc Hx Hxc)|].
  assert (G := IH (acc + x)%float (k0 + 1)%Z ltac:(lia) ltac:(lia) A1 A2 k d ltac:(lia)). cbn [nth]. destruct k as [|k]; exact G.
Qed.
Definition run (q : list float) (j : nat) : R := match j with O => 0 | S k => fval (nth k (cumsum q) n_nan) end.
Definition qv (q : list float) (j : nat) : R := fval (nth j q n_nan).
Lemma run_step q j : Forall fok q -> (Z.of_nat (length q) <= 2 ^ 53)%Z -> (j < length q)%nat -> run q (S j) = rnd (run q j + qv q j).
Proof.
  intros F L Hj. destruct F as [|x q Hx Hq]; [cbn in Hj; lia|]. unfold run, qv. cbn [cumsum length] in *. destruct j as [|j].
  - cbn [nth]. rewrite Rplus_0_l. symmetry. apply rnd_fval.
  - pose proof (cumsum_from_eq q Hq x 1%Z ltac:(lia) ltac:(lia) (proj1 Hx) ltac:(rewrite Rmult_1_l; apply Hx) j n_nan ltac:(lia)) as G.
    cbn [nth]. rewrite G. destruct j; reflexivity.
Qed.
Lemma qv_nonneg q j : Forall fok q -> (j < length q)%nat -> 0 <= qv q j.
Proof. intros F Hj. rewrite Forall_forall in F. apply (F (nth j q n_nan)), nth_In, Hj. Qed.
Lemma run_nonneg q j : Forall fok q -> (Z.of_nat (length q) <= 2 ^ 53)%Z -> (j <= length q)%nat -> 0 <= run q j.
Proof.
  intros F L. induction j as [|j IH]; intro Hj; [cbn; lra|]. rewrite run_step by (assumption || lia). apply rnd_nonneg.
  pose proof (qv_nonneg q j F ltac:(lia)). specialize (IH ltac:(lia)). lra.
Qed.
Lemma run_err q j : Forall fok q -> (Z.of_nat (length q) <= 2 ^ 53)%Z -> (j < length q)%nat ->
  Rabs (run q (S j) - run q j - qv q j) <= u64 * (run q j + qv q j) + eta64.
Proof.
  intros F L Hj. rewrite run_step by assumption. pose proof (qv_nonneg q j F Hj). pose proof (run_nonneg q j F L ltac:(lia)).
  replace (rnd (run q j + qv q j) - run q j - qv q j) with (rnd (run q j + qv q j) - (run q j + qv q j)) by ring. apply rnd_err_nn. lra.
Qed.
(** exact sums of the first quarters *)
Definition qsum (q : list float) (j : nat) : R := Rsum (map (qv q) (seq 0 j)).
Lemma qsum_S q j : qsum q (S j) = qsum q j + qv q j.
Proof. unfold qsum. rewrite seq_S, map_app, Rsum_app. unfold Rsum at 2. cbn [map fold_right plus]. lra. Qed.
Lemma qsum_nonneg q j : Forall fok q -> (j <= length q)%nat -> 0 <= qsum q j.
Proof.
  intros F. induction j as [|j IH]; intro Hj; [unfold qsum, Rsum; cbn; lra|]. rewrite qsum_S. pose proof (qv_nonneg q j F ltac:(lia)). specialize (IH ltac:(lia)). lra.
Qed.
Lemma qsum_mono q i j : Forall fok q -> (i <= j <= length q)%nat -> qsum q i <= qsum q j.
Proof.
  intros F [H1 H2]. induction H1 as [|j H1 IH]; [lra|]. rewrite qsum_S. pose proof (qv_nonneg q j F ltac:(lia)). specialize (IH ltac:(lia)). lra.
Qed.
Lemma pow_small j : 2 * INR j * u64 <= 1 -> 1 <= (1 + u64) ^ j <= 1 + 2 * INR j * u64.
Proof.
  pose proof u64_pos as U. induction j as [|j IH]; intro H; [cbn; lra|]. rewrite S_INR in *. pose proof (pos_INR j).
  destruct IH as [A B]; [nra|]. cbn [pow]. split; nra.
Qed.
Lemma run_bound q j : Forall fok q -> (Z.of_nat (length q) <= 2 ^ 53)%Z -> (j <= length q)%nat ->
  run q j <= (1 + u64) ^ j * (qsum q j + INR j * eta64).
Proof.
  intros F L. pose proof u64_pos as U. pose proof eta64_pos as E. induction j as [|j IH]; intro Hj; [cbn; unfold qsum, Rsum; cbn; lra|].
  specialize (IH ltac:(lia)). pose proof (run_err q j F L ltac:(lia)) as R. apply Rabs_le_inv in R. rewrite qsum_S, S_INR. pose proof (qv_nonneg q j F ltac:(lia)) as Q.
  assert (P : 1 <= (1 + u64) ^ j) by (apply pow_R1_Rle; lra). cbn [pow].
  set (p := (1 + u64) ^ j) in *. pose proof (qsum_nonneg q j F ltac:(lia)) as S0. pose proof (pos_INR j) as J.
  assert (S1 : run q (S j) <= (1 + u64) * (run q j + qv q j) + eta64) by lra.
  assert (S2 : run q j + qv q j <= p * (qsum q j + INR j * eta64) + p * qv q j) by nra.
  assert (S4 : 1 <= (1 + u64) * p) by (apply Rle_trans with (1 * 1); [lra|apply Rmult_le_compat; lra]).
  assert (S3 : eta64 <= (1 + u64) * p * eta64) by (rewrite <- (Rmult_1_l eta64) at 1; apply Rmult_le_compat_r; lra).
  apply Rle_trans with (1 := S1). apply Rle_trans with ((1 + u64) * (p * (qsum q j + INR j * eta64) + p * qv q j) + (1 + u64) * p * eta64); [apply Rplus_le_compat; [apply Rmult_le_compat_l; lra|exact S3]|].
  right. ring.
Qed.
Lemma block_err q M b m : Forall fok q -> (Z.of_nat (length q) <= 2 ^ 53)%Z -> (b + m <= length q)%nat ->
  (forall j, (b <= j < b + m)%nat -> run q j + qv q j <= M) ->
  Rabs (run q (b + m) - run q b - (qsum q (b + m) - qsum q b)) <= INR m * (u64 * M + eta64).
Proof.
  intros F L. pose proof u64_pos as U. induction m as [|m IH]; intros Hm HM.
  - rewrite Nat.add_0_r. replace (run q b - run q b - (qsum q b - qsum q b)) with 0 by ring. rewrite Rabs_R0. cbn. lra.
  - specialize (IH ltac:(lia) ltac:(intros; apply HM; lia)). rewrite Nat.add_succ_r, qsum_S, S_INR.
    pose proof (run_err q (b + m) F L ltac:(lia)) as R. pose proof (HM (b + m)%nat ltac:(lia)) as B. apply Rabs_le_inv in IH, R. apply Rabs_le.
    assert (u64 * (run q (b + m) + qv q (b + m)) <= u64 * M) by nra. lra.
Qed.
Lemma run_fval q j : exists x, run q j = fval x.
Proof. destruct j; [exists 0%float; reflexivity|eexists; reflexivity]. Qed.
Lemma run_mono q i j : Forall fok q -> (Z.of_nat (length q) <= 2 ^ 53)%Z -> (i <= j <= length q)%nat -> run q i <= run q j.
Proof.
  intros F L [H1 H2]. induction H1 as [|j H1 IH]; [lra|]. rewrite run_step by (assumption || lia).
  apply Rle_trans with (1 := IH ltac:(lia)). destruct (run_fval q j) as [x ->]. rewrite <- (rnd_fval x) at 1. apply rnd_le.
  pose proof (qv_nonneg q j F ltac:(lia)). lra.
Qed.

Lemma nth_map_seq {A} (f : nat -> A) s k j d : (j < k)%nat -> nth j (map f (seq s k)) d = f (s + j)%nat.
Proof.
  intro H. rewrite nth_indep with (d' := f 0%nat) by (rewrite map_length, seq_length; exact H). rewrite map_nth, seq_nth by exact H. reflexivity.
Qed.

(** ** hours *)
Definition hv (v : list float) (m : nat) : R := fval (nth m (to_hours v) n_nan).
Section Hours.
Variables (n : nat) (v : list float).
Hypothesis (F : Forall fok v) (L : length v = (32 * n)%nat) (Hn : (96 * Z.of_nat n <= 2 ^ 53)%Z).
Let q := to_quarters v.
Local Lemma Fq : Forall fok q.
Proof. apply to_quarters_ok, F. Qed.
Local Lemma Lq : length q = (96 * n)%nat.
Proof. unfold q. rewrite to_quarters_length. lia. Qed.
Local Lemma Zq : (Z.of_nat (length q) <= 2 ^ 53)%Z.
Proof. rewrite Lq. lia. Qed.
Lemma hour_err m : (m < 24 * n)%nat ->
  Rabs (hv v m - (run q (4 * m + 4) - run q (4 * m))) <= u64 * (run q (4 * m + 4) - run q (4 * m)) + eta64.
Proof.
  intro Hm. pose proof Fq as F'. pose proof Zq as Z'. pose proof Lq as L'. pose proof u64_pos as U. pose proof eta64_pos as E.
  pose proof (run_mono q (4 * m) (4 * m + 4) F' Z' ltac:(lia)) as M.
  unfold hv. rewrite (nth_to_hours n) by assumption. cbv zeta. fold q. destruct (Nat.eqb_spec m 0) as [->|Hm0].
  - unfold run in *. cbn [Nat.mul Nat.add] in *. rewrite Rminus_0_r in *. match goal with |- Rabs (?a - ?a) <= _ => replace (a - a) with 0 by ring end.
    rewrite Rabs_R0. apply Rplus_le_le_0_compat; [apply Rmult_le_pos; lra|lra].
  - replace (4 * m + 4)%nat with (S (4 * m + 3)) in * by lia. replace (run q (4 * m)) with (fval (nth (4 * m - 1) (cumsum q) n_nan)) in *.
    2:{ replace (4 * m)%nat with (S (4 * m - 1)) at 2 by lia. reflexivity. }
    change (run q (S (4 * m + 3))) with (fval (nth (4 * m + 3) (cumsum q) n_nan)) in *.
    pose proof (proj1 (cumsum_ok q F' Z' (4 * m + 3) n_nan ltac:(lia))) as (A1 & A2). pose proof (proj1 (cumsum_ok q F' Z' (4 * m - 1) n_nan ltac:(lia))) as (B1 & B2).
    cbn [n_sub Num_f64].
    destruct (fsub_correct _ _ A1 B1) as [-> _]; [apply (abs_small _ (nth (4 * m + 3) (cumsum q) n_nan)); lra|]. apply rnd_err_nn. lra.
Qed.
Lemma hours_err s k : (s + k <= 24 * n)%nat ->
  Rabs (Rsum (map (hv v) (seq s k)) - (run q (4 * (s + k)) - run q (4 * s))) <= u64 * (run q (4 * (s + k)) - run q (4 * s)) + INR k * eta64.
Proof.
  induction k as [|k IH]; intro Hk.
  - rewrite Nat.add_0_r. unfold Rsum. cbn [seq map fold_right INR]. replace (0 - (run q (4 * s) - run q (4 * s))) with 0 by ring. rewrite Rabs_R0. lra.
  - specialize (IH ltac:(lia)). pose proof (hour_err (s + k) ltac:(lia)) as H. rewrite seq_S, map_app, Rsum_app, S_INR. unfold Rsum at 2. cbn [map fold_right].
    replace (4 * (s + S k))%nat with (4 * (s + k) + 4)%nat by lia. apply Rabs_le_inv in IH, H. apply Rabs_le. lra.
Qed.
Lemma hours_chunk i : (i < n)%nat -> fsum (chunk 24 i (to_hours v)) = Rsum (map (hv v) (seq (24 * i) 24)).
Proof.
  intro Hi. unfold fsum. f_equal. change (hv v) with (fun m => fval (nth m (to_hours v) n_nan)). rewrite <- (map_map (fun m => nth m (to_hours v) n_nan) fval). f_equal.
  apply nth_ext with (d := n_nan) (d' := n_nan).
  - rewrite map_length, seq_length. apply (chunk_length 24 i (to_hours v) n); [|exact Hi].
    unfold to_hours, hours_of_cumsum. cbv zeta. rewrite map_length, seq_length, to_quarters_length, L. symmetry. apply Nat.div_unique_exact; lia.
  - intros j Hj. assert (Hj' : (j < 24)%nat) by (unfold chunk in Hj; rewrite firstn_length in Hj; lia). rewrite nth_chunk by exact Hj'.
    rewrite nth_map_seq by exact Hj'. reflexivity.
Qed.
End Hours.

Lemma qsum_block q b m : (b + m <= length q)%nat -> qsum q (b + m) - qsum q b = fsum (firstn m (skipn b q)).
Proof.
  intro H. unfold qsum. rewrite seq_app, map_app, Rsum_app. unfold fsum. replace (Rsum (map fval (firstn m (skipn b q)))) with (Rsum (map (qv q) (seq (0 + b) m))); [ring|].
  f_equal. change (qv q) with (fun j => fval (nth j q n_nan)). rewrite <- (map_map (fun j => nth j q n_nan) fval). f_equal. cbn [plus]. symmetry.
  apply nth_ext with (d := n_nan) (d' := n_nan); [rewrite map_length, seq_length, firstn_length, skipn_length; lia|].
  intros j Hj. rewrite firstn_length, skipn_length in Hj.
  rewrite nth_map_seq by lia. assert (G : forall k (l : list float) j, (j < k)%nat -> nth j (firstn k l) n_nan = nth j l n_nan).
  { clear. induction k as [|k IH]; intros l j H; [lia|]. destruct l as [|x l]; [destruct j; reflexivity|]. destruct j; [reflexivity|]. cbn. apply IH; lia. }
  rewrite G by lia. revert H Hj. clear. revert q. induction b as [|b IH]; intros q H Hj; [reflexivity|]. destruct q as [|x q]; [cbn in H; lia|]. cbn in *. apply IH; lia.
Qed.

(** ** a day *)
Lemma day_quarters n (amounts boxes : list float) k : length amounts = n -> Forall fok amounts -> refines 5 amounts boxes -> (k < n)%nat ->
  Rabs (qsum (to_quarters boxes) (96 * S k) - qsum (to_quarters boxes) (96 * k) - qv amounts k) <= 23 * u64 * qv amounts k + 160 * eta64.
Proof.
  intros Ln F R0 Hk. pose proof (refines_length _ _ _ R0) as BL. change (2 ^ 5)%nat with 32%nat in BL. destruct (refines_f64 _ _ _ F R0) as [Fb _].
  pose proof (refines_err 5 _ _ F R0 k n_nan ltac:(lia)) as E1. change (2 ^ 5)%nat with 32%nat in E1.
  pose proof five_levels as [V1 V2]. pose proof u64_pos as U. pose proof eta64_pos as E.
  replace (96 * S k)%nat with (96 * k + 96)%nat by lia. rewrite qsum_block by (rewrite to_quarters_length; lia).
  replace (96 * k)%nat with (3 * (32 * k))%nat by lia. rewrite skipn_quarters. change 96%nat with (3 * 32)%nat. rewrite firstn_quarters. fold (chunk 32 k boxes).
  assert (LC : length (chunk 32 k boxes) = 32%nat) by (apply (chunk_length 32 k boxes n); lia).
  assert (FC : Forall fok (chunk 32 k boxes)).
  { apply Forall_forall. intros x Hx. rewrite Forall_forall in Fb. apply Fb. unfold chunk in Hx.
    rewrite <- (firstn_skipn (32 * k) boxes). apply in_or_app. right. rewrite <- (firstn_skipn 32 (skipn (32 * k) boxes)). apply in_or_app. left. exact Hx. }
  pose proof (quarters_sum _ FC) as E2. rewrite LC in E2. change (nth k amounts n_nan) with (nth k amounts n_nan) in E1. change (fval (nth k amounts n_nan)) with (qv amounts k) in E1.
  replace (INR 32) with 32 in E2 by (cbn; lra). set (B := fsum (chunk 32 k boxes)) in *. set (D := fsum (to_quarters (chunk 32 k boxes))) in *. set (a := qv amounts k) in *.
  assert (A0 : 0 <= a) by (apply qv_nonneg; [exact F|lia]).
  assert (E1' : Rabs (B - a) <= 21 * u64 * a + 63 * eta64).
  { apply Rle_trans with (1 := E1). apply Rplus_le_compat; apply Rmult_le_compat_r; lra. }
  apply Rabs_le_inv in E1', E2. assert (UB : u64 * B <= u64 * (a + 21 * u64 * a + 63 * eta64)) by (apply Rmult_le_compat_l; lra).
  assert (X1 : u64 * (21 * u64 * a) <= / 2 * u64 * a).
  { replace (u64 * (21 * u64 * a)) with (21 * u64 * (u64 * a)) by ring. rewrite (Rmult_assoc (/ 2)). apply Rmult_le_compat_r; [apply Rmult_le_pos; lra|lra]. }
  assert (X2 : u64 * (63 * eta64) <= / 2 * eta64).
  { replace (u64 * (63 * eta64)) with (63 * u64 * eta64) by ring. apply Rmult_le_compat_r; lra. }
  rewrite !Rmult_plus_distr_l in UB. apply Rabs_le. pose proof (Rmult_le_pos u64 a ltac:(lra) A0). lra.
Qed.

Lemma quarters_total n (amounts boxes : list float) k : length amounts = n -> Forall fok amounts -> refines 5 amounts boxes -> (k <= n)%nat ->
  qsum (to_quarters boxes) (96 * k) <= (1 + 23 * u64) * qsum amounts k + 160 * INR k * eta64.
Proof.
  intros Ln F R0. induction k as [|k IH]; intro Hk.
  - rewrite Nat.mul_0_r. unfold qsum, Rsum. cbn [seq map fold_right INR]. lra.
  - specialize (IH ltac:(lia)). pose proof (day_quarters n amounts boxes k Ln F R0 ltac:(lia)) as D. rewrite (qsum_S amounts k), S_INR. apply Rabs_le_inv in D. lra.
Qed.

Lemma run_total n (amounts boxes : list float) i j : length amounts = n -> Forall fok amounts -> refines 5 amounts boxes -> (Z.of_nat n <= 1000000)%Z -> (i < n)%nat ->
  (j <= 96 * S i)%nat -> run (to_quarters boxes) j + (qsum (to_quarters boxes) (96 * S i) - qsum (to_quarters boxes) j) <= 1002 / 1000 * qsum amounts (S i) + 300000000 * eta64.
Proof.
  intros Ln F R0 Hn Hi Hj. pose proof (refines_length _ _ _ R0) as BL. change (2 ^ 5)%nat with 32%nat in BL. destruct (refines_f64 _ _ _ F R0) as [Fb _].
  set (q := to_quarters boxes). assert (Fq : Forall fok q) by (apply to_quarters_ok, Fb). assert (Lq : length q = (96 * n)%nat) by (unfold q; rewrite to_quarters_length; lia).
  assert (Zq : (Z.of_nat (length q) <= 2 ^ 53)%Z) by lia.
  pose proof u64_pos as U. pose proof eta64_pos as E. pose proof (quarters_total n amounts boxes (S i) Ln F R0 ltac:(lia)) as T. fold q in T.
  pose proof (run_bound q j Fq Zq ltac:(lia)) as B.
  assert (J : INR j <= 96000000) by (rewrite INR_IZR_INZ; apply IZR_le; lia). assert (I : INR (S i) <= 1000000) by (rewrite INR_IZR_INZ; apply IZR_le; lia).
  destruct (pow_small j) as [P1 P2]; [pose proof (pos_INR j); nra|]. assert (P3 : (1 + u64) ^ j <= 1001 / 1000) by (pose proof (pos_INR j); nra).
  pose proof (qsum_nonneg q j Fq ltac:(lia)) as Q0. pose proof (qsum_mono q j (96 * S i) Fq ltac:(lia)) as Q1. pose proof (pos_INR j) as J0. pose proof (pos_INR (S i)) as I0.
  pose proof (qsum_nonneg amounts (S i) F ltac:(lia)) as A0. set (p := (1 + u64) ^ j) in *. set (Q := qsum q (96 * S i)) in *. set (A := qsum amounts (S i)) in *.
  assert (X1 : INR j * eta64 <= 96000000 * eta64) by (apply Rmult_le_compat_r; lra).
  assert (X2 : p * (qsum q j + INR j * eta64) <= 1001 / 1000 * (qsum q j + INR j * eta64)) by (apply Rmult_le_compat_r; [apply Rplus_le_le_0_compat; [exact Q0|apply Rmult_le_pos; lra]|exact P3]).
  assert (X3 : INR (S i) * eta64 <= 1000000 * eta64) by (apply Rmult_le_compat_r; lra).
  assert (X4 : 23 * u64 * A <= / 10000 * A) by (apply Rmult_le_compat_r; lra). lra.
Qed.

(** the error of one day, in terms of all the rain up to that day *)
Lemma day_err n (amounts boxes : list float) i : length amounts = n -> Forall fok amounts -> refines 5 amounts boxes -> (Z.of_nat n <= 1000000)%Z -> (i < n)%nat ->
  Rabs (fsum (chunk 24 i (to_hours boxes)) - qv amounts i) <= 2 / 10 ^ 14 * qsum amounts (S i) + 1 / 10 ^ 300.
Proof.
  intros Ln F R0 Hn Hi. pose proof (refines_length _ _ _ R0) as BL. change (2 ^ 5)%nat with 32%nat in BL. destruct (refines_f64 _ _ _ F R0) as [Fb _].
  assert (Fq : Forall fok (to_quarters boxes)) by (apply to_quarters_ok, Fb). assert (Lq : length (to_quarters boxes) = (96 * n)%nat) by (rewrite to_quarters_length; lia).
  assert (Zq : (Z.of_nat (length (to_quarters boxes)) <= 2 ^ 53)%Z) by lia.
  pose proof u64_pos as U. pose proof eta64_pos as E. pose proof eta64_small as ES.
  rewrite (hours_chunk n boxes ltac:(lia) i Hi). pose proof (hours_err n boxes Fb ltac:(lia) ltac:(lia) (24 * i) 24 ltac:(lia)) as H1.
  replace (4 * (24 * i + 24))%nat with (96 * S i)%nat in H1 by lia. replace (4 * (24 * i))%nat with (96 * i)%nat in H1 by lia.
  pose proof (fun j => run_total n amounts boxes i j Ln F R0 Hn Hi) as M. set (T := qsum amounts (S i)) in *. set (W := 1002 / 1000 * T + 300000000 * eta64) in *.
  pose proof (day_quarters n amounts boxes i Ln F R0 Hi) as D. set (q := to_quarters boxes) in *.
  assert (BE : Rabs (run q (96 * i + 96) - run q (96 * i) - (qsum q (96 * i + 96) - qsum q (96 * i))) <= INR 96 * (u64 * W + eta64)).
  { apply block_err; [exact Fq|exact Zq|lia|]. intros j Hj. specialize (M j ltac:(lia)). pose proof (qsum_mono q (S j) (96 * S i) Fq ltac:(lia)) as Q. rewrite qsum_S in Q. lra. }
  replace (96 * i + 96)%nat with (96 * S i)%nat in BE by lia. replace (INR 96) with 96 in BE by (cbn; lra). replace (INR 24) with 24 in H1 by (cbn; lra).
  pose proof (M (96 * S i)%nat ltac:(lia)) as M1. pose proof (run_nonneg q (96 * i) Fq Zq ltac:(lia)) as N0.
  assert (X1 : u64 * (run q (96 * S i) - run q (96 * i)) <= u64 * W) by (apply Rmult_le_compat_l; lra).
  assert (A0 : 0 <= qv amounts i) by (apply qv_nonneg; [exact F|lia]).
  assert (A1 : qv amounts i <= T) by (unfold T; rewrite qsum_S; pose proof (qsum_nonneg amounts i F ltac:(lia)); lra).
  assert (X2 : u64 * qv amounts i <= u64 * T) by (apply Rmult_le_compat_l; lra).
  assert (X3 : u64 * W = 1002 / 1000 * (u64 * T) + 300000000 * (u64 * eta64)) by (unfold W; ring).
  assert (X4 : u64 * eta64 <= / 10 ^ 15 * eta64) by (apply Rmult_le_compat_r; lra).
  assert (X5 : 121 * (u64 * T) <= 2 / 10 ^ 14 * T).
  { rewrite <- Rmult_assoc. apply Rmult_le_compat_r; [lra|]. unfold u64. lra. }
  apply Rabs_le_inv in H1, BE, D. assert (X6 : 23 * u64 * qv amounts i <= 23 * (u64 * T)) by lra.
  assert (X7 : 0 <= u64 * T) by (apply Rmult_le_pos; lra).
  apply Rabs_le. lra.
Qed.
