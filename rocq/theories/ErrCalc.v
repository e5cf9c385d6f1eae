(** Error bounds for single binary64 operations, integers as doubles, and pi. *)
From Coq Require Import ZArith List Bool Lia Reals Lra Floats Uint63 Machin.
From Flocq Require Import Core BinarySingleNaN IEEE754.PrimFloat.
From Verif Require Import Num F64 CascadeFloat CascadeRound FiveRound SpecSineRound.
Open Scope R_scope.

(** [x] is finite and within [e] of [r] *)
Definition app (x : float) (r e : R) : Prop := ffin x /\ Rabs (fval x - r) <= e.

Lemma app_bound x r e A : app x r e -> Rabs r <= A -> Rabs (fval x) <= A + e.
Proof. intros [_ H] HA. replace (fval x) with ((fval x - r) + r) by ring. eapply Rle_trans; [apply Rabs_triang|]. lra. Qed.
Lemma app_weaken x r e e' : app x r e -> e <= e' -> app x r e'.
Proof. intros [F H] L. split; [exact F|lra]. Qed.
Lemma app_eq x r r' e : app x r e -> r = r' -> app x r' e.
Proof. intros H <-. exact H. Qed.
Lemma app_exact x : ffin x -> app x (fval x) 0.
Proof. intro F. split; [exact F|]. rewrite Rminus_diag_eq by reflexivity. rewrite Rabs_R0. lra. Qed.

Lemma rnd_in_range a : Rabs a <= 100 * cap -> Rabs (rnd a) < big.
Proof.
  intro H. pose proof (rnd_err a) as R. pose proof u64_pos as U. pose proof cap_big as B. pose proof eta64_small as E. pose proof eta64_pos as E0.
  assert (P : 1 <= cap) by (unfold cap; change 1 with (bpow radix2 0); apply bpow_le; lia).
  assert (UA : u64 * Rabs a <= 1 * Rabs a) by (apply Rmult_le_compat_r; [apply Rabs_pos|lra]).
  replace (rnd a) with ((rnd a - a) + a) by ring. eapply Rle_lt_trans; [apply Rabs_triang|].
  assert (eta64 <= 1) by lra. lra.
Qed.

Lemma app_add x y r s e f A B : app x r e -> app y s f -> Rabs r <= A -> Rabs s <= B -> A + e + (B + f) <= 100 * cap ->
  app (x + y)%float (r + s) (e + f + u64 * (A + e + (B + f))).
Proof.
  intros HX HY HA HB HC. pose proof (app_bound _ _ _ _ HX HA) as BX. pose proof (app_bound _ _ _ _ HY HB) as BY.
  destruct HX as [FX EX], HY as [FY EY].
  assert (S : Rabs (fval x + fval y) <= A + e + (B + f)) by (eapply Rle_trans; [apply Rabs_triang|lra]).
  destruct (add_step x y _ FX FY S HC) as [F E]. split; [exact F|].
  replace (fval (x + y)%float - (r + s)) with ((fval (x + y)%float - (fval x + fval y)) + ((fval x - r) + (fval y - s))) by ring.
  eapply Rle_trans; [apply Rabs_triang|]. pose proof (Rabs_triang (fval x - r) (fval y - s)). lra.
Qed.
Lemma app_sub x y r s e f A B : app x r e -> app y s f -> Rabs r <= A -> Rabs s <= B -> A + e + (B + f) <= 100 * cap ->
  app (x - y)%float (r - s) (e + f + u64 * (A + e + (B + f))).
Proof.
  intros HX HY HA HB HC. pose proof (app_bound _ _ _ _ HX HA) as BX. pose proof (app_bound _ _ _ _ HY HB) as BY.
  destruct HX as [FX EX], HY as [FY EY].
  assert (S : Rabs (fval x - fval y) <= A + e + (B + f)).
  { unfold Rminus. eapply Rle_trans; [apply Rabs_triang|]. rewrite Rabs_Ropp. lra. }
  destruct (sub_step_err x y _ FX FY S HC) as [F E]. split; [exact F|].
  replace (fval (x - y)%float - (r - s)) with ((fval (x - y)%float - (fval x - fval y)) + ((fval x - r) - (fval y - s))) by ring.
  eapply Rle_trans; [apply Rabs_triang|].
  assert (Rabs ((fval x - r) - (fval y - s)) <= e + f).
  { unfold Rminus at 1. eapply Rle_trans; [apply Rabs_triang|]. rewrite Rabs_Ropp. lra. }
  lra.
Qed.
Lemma app_mul x y r s e f A B : app x r e -> app y s f -> Rabs r <= A -> Rabs s <= B -> (A + e) * (B + f) <= 100 * cap ->
  app (x * y)%float (r * s) (e * (B + f) + A * f + (u64 * ((A + e) * (B + f)) + eta64)).
Proof.
  intros HX HY HA HB HC. pose proof (app_bound _ _ _ _ HX HA) as BX. pose proof (app_bound _ _ _ _ HY HB) as BY.
  destruct HX as [FX EX], HY as [FY EY].
  assert (S : Rabs (fval x * fval y) <= (A + e) * (B + f)) by (rewrite Rabs_mult; apply Rmult_le_compat; try apply Rabs_pos; assumption).
  destruct (fmul_correct x y FX FY) as [E F]; [apply rnd_in_range; lra|]. split; [exact F|]. rewrite E.
  pose proof (rnd_err (fval x * fval y)) as R. pose proof u64_pos as U.
  assert (R' : Rabs (rnd (fval x * fval y) - fval x * fval y) <= u64 * ((A + e) * (B + f)) + eta64).
  { eapply Rle_trans; [exact R|]. apply Rplus_le_compat_r, Rmult_le_compat_l; lra. }
  replace (rnd (fval x * fval y) - r * s) with ((rnd (fval x * fval y) - fval x * fval y) + ((fval x - r) * fval y + r * (fval y - s))) by ring.
  eapply Rle_trans; [apply Rabs_triang|].
  assert (Rabs ((fval x - r) * fval y + r * (fval y - s)) <= e * (B + f) + A * f).
  { eapply Rle_trans; [apply Rabs_triang|]. rewrite !Rabs_mult. apply Rplus_le_compat; apply Rmult_le_compat; try apply Rabs_pos; assumption. }
  lra.
Qed.
(** division by a double of size at least [D] *)
Lemma app_div x y r e A D : app x r e -> Rabs r <= A -> 0 < D -> D <= Rabs (fval y) -> (A + e) / D <= 100 * cap ->
  app (x / y)%float (r / fval y) (e / D + (u64 * ((A + e) / D) + eta64)).
Proof.
  intros HX HA H0 HD HC. pose proof (app_bound _ _ _ _ HX HA) as BX. destruct HX as [FX EX].
  assert (Y0 : fval y <> 0) by (intro Z; rewrite Z, Rabs_R0 in HD; lra).
  assert (IY : Rabs (/ fval y) <= / D) by (rewrite Rabs_inv; apply Rinv_le_contravar; assumption).
  assert (I0 : 0 < / D) by (apply Rinv_0_lt_compat, H0).
  assert (S : Rabs (fval x / fval y) <= (A + e) / D) by (unfold Rdiv; rewrite Rabs_mult; apply Rmult_le_compat; try apply Rabs_pos; assumption).
  destruct (fdiv_correct x y FX Y0) as [E F]; [apply rnd_in_range; lra|]. split; [exact F|]. rewrite E.
  pose proof (rnd_err (fval x / fval y)) as R. pose proof u64_pos as U.
  assert (R' : Rabs (rnd (fval x / fval y) - fval x / fval y) <= u64 * ((A + e) / D) + eta64).
  { eapply Rle_trans; [exact R|]. apply Rplus_le_compat_r, Rmult_le_compat_l; lra. }
  replace (rnd (fval x / fval y) - r / fval y) with ((rnd (fval x / fval y) - fval x / fval y) + (fval x - r) * / fval y) by (field; exact Y0).
  eapply Rle_trans; [apply Rabs_triang|]. rewrite Rabs_mult.
  assert (Rabs (fval x - r) * Rabs (/ fval y) <= e * / D) by (apply Rmult_le_compat; try apply Rabs_pos; assumption).
  unfold Rdiv at 3. lra.
Qed.

Lemma cap_1 : 1000000000 <= cap.
Proof. unfold cap. change 1000000000 with (IZR 1000000000). apply Rle_trans with (bpow radix2 40); [change (bpow radix2 40) with (IZR (2 ^ 40)); apply IZR_le; lia|apply bpow_le; lia]. Qed.

(** ** integers *)
Lemma of_uint63_val z : (0 <= z <= 2 ^ 53)%Z -> ffin (PrimFloat.of_uint63 (Uint63.of_Z z)) /\ fval (PrimFloat.of_uint63 (Uint63.of_Z z)) = IZR z.
Proof.
  intro H. unfold ffin, fval. rewrite of_int63_equiv.
  rewrite Uint63.of_Z_spec. rewrite Z.mod_small by (change Uint63.wB with (2 ^ 63)%Z; lia).
  pose proof (binary_normalize_correct FloatOps.prec FloatOps.emax Hprec Hmax mode_NE z 0 false) as C. cbv zeta in C.
  assert (EF : F2R (Float radix2 z 0) = IZR z) by (unfold F2R; cbn [Fnum Fexp bpow]; ring). rewrite EF in C.
  assert (G : round radix2 fexp64 ZnearestE (IZR z) = IZR z).
  { pose proof (cap_format z H) as CF.
    apply round_generic; [typeclasses eauto|]. rewrite <- EF.
    destruct (Z.eq_dec z 0) as [->|NZ]; [unfold F2R; cbn [Fnum]; rewrite Rmult_0_l; apply generic_format_0|].
    destruct (Z.eq_dec z (2 ^ 53)) as [->|NB].
    - rewrite EF. change (IZR (2 ^ 53)) with (bpow radix2 53). apply generic_format_bpow. cbn. lia.
    - apply generic_format_F2R. intros _. unfold cexp, SpecFloat.fexp, FloatOps.emax, FloatOps.prec.
      assert (ML : (mag radix2 (F2R (Float radix2 z 0)) <= 53)%Z).
      { rewrite EF. apply mag_le_bpow; [apply IZR_neq; exact NZ|]. rewrite Rabs_pos_eq by (apply IZR_le; lia).
        change (bpow radix2 53) with (IZR (2 ^ 53)). apply IZR_lt. lia. }
      cbn [SpecFloat.emin]. unfold SpecFloat.emin. lia. }
  cbn [round_mode] in C. rewrite G in C.
  assert (L : Rabs (IZR z) < bpow radix2 FloatOps.emax).
  { rewrite Rabs_pos_eq by (apply IZR_le; lia). apply Rle_lt_trans with (IZR (2 ^ 53)); [apply IZR_le; lia|].
    change (IZR (2 ^ 53)) with (bpow radix2 53). apply bpow_lt. reflexivity. }
  rewrite Rlt_bool_true in C by exact L. destruct C as (A & B & _). auto.
Qed.
Lemma of_uint63_opp x r : ffin x /\ fval x = r -> ffin (- x)%float /\ fval (- x)%float = - r.
Proof. intros [F V]. unfold ffin, fval in *. rewrite opp_equiv, is_finite_Bopp, B2R_Bopp, V. split; [exact F|reflexivity]. Qed.
Lemma ofZ_val z : (Z.abs z <= 2 ^ 53)%Z -> ffin (n_ofZ z) /\ fval (n_ofZ z) = IZR z.
Proof.
  intro H. change (n_ofZ z) with (f64_ofZ z). destruct z as [|p|p]; unfold f64_ofZ.
  - apply of_uint63_val. lia.
  - apply of_uint63_val. lia.
  - change (IZR (Z.neg p)) with (- IZR (Z.pos p)). apply of_uint63_opp, of_uint63_val. lia.
Qed.
Lemma app_ofZ z : (Z.abs z <= 2 ^ 53)%Z -> app (n_ofZ z) (IZR z) 0.
Proof. intro H. destruct (ofZ_val z H) as [F V]. rewrite <- V. apply app_exact, F. Qed.

(** ** pi *)
Lemma PI_close : Rabs (fval np_pi - PI) <= 2 / 10 ^ 16.
Proof.
  assert (V : fval np_pi = 884279719003555 / 281474976710656) by (unfold fval; vm_compute; lra). rewrite V.
  pose proof (PI_2_3_7_ineq 8) as [L U]. 
  unfold tg_alt, PI_2_3_7_tg, Ratan_seq in L, U. cbn [sum_f_R0 Nat.mul Nat.add] in L, U.
  repeat rewrite INR_IZR_INZ in L. repeat rewrite INR_IZR_INZ in U. cbn [Z.of_nat Pos.of_succ_nat Pos.succ pow Nat.mul Nat.add] in L, U.
  apply Rabs_le. split; lra.
Qed.
