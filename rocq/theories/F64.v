(** Bridge between Coq's primitive binary64 floats and real numbers (via Flocq). *)
From Coq Require Import ZArith Reals Floats Lia Lra Bool.
From Flocq Require Import Core BinarySingleNaN IEEE754.PrimFloat.
From Verif Require Import Num.
Open Scope R_scope.
Notation float := PrimFloat.float (only parsing).

Definition fval (x : float) : R := B2R (Prim2B x).
Definition ffin (x : float) : Prop := is_finite (Prim2B x) = true.

Notation fexp64 := (SpecFloat.fexp FloatOps.prec FloatOps.emax).
Notation rnd := (round radix2 fexp64 ZnearestE).
Definition big : R := bpow radix2 1024.

#[local] Instance fexp64_valid : Valid_exp fexp64.
Proof. apply (fexp_correct FloatOps.prec FloatOps.emax). reflexivity. Qed.

Lemma fval_format x : generic_format radix2 fexp64 (fval x).
Proof. apply generic_format_B2R. Qed.

Lemma rnd_fval x : rnd (fval x) = fval x.
Proof. apply round_generic; [typeclasses eauto|apply fval_format]. Qed.

Lemma rnd_le a b : a <= b -> rnd a <= rnd b.
Proof. apply round_le; typeclasses eauto. Qed.
Lemma rnd_0 : rnd 0 = 0.
Proof. apply round_0; typeclasses eauto. Qed.
Lemma rnd_nonneg a : 0 <= a -> 0 <= rnd a.
Proof. intro H. rewrite <- rnd_0. apply rnd_le, H. Qed.
Lemma rnd_le_fval a x : a <= fval x -> rnd a <= fval x.
Proof. intro H. rewrite <- (rnd_fval x). apply rnd_le, H. Qed.
Lemma rnd_ge_fval a x : fval x <= a -> fval x <= rnd a.
Proof. intro H. rewrite <- (rnd_fval x). apply rnd_le, H. Qed.

Lemma fval_lt_big x : Rabs (fval x) < big.
Proof. apply (abs_B2R_lt_emax FloatOps.prec FloatOps.emax). Qed.
Lemma fval_lt_big' x : fval x < big.
Proof. apply Rle_lt_trans with (2 := fval_lt_big x). apply Rle_abs. Qed.

Lemma fadd_correct x y : ffin x -> ffin y -> Rabs (rnd (fval x + fval y)) < big ->
  fval (x + y)%float = rnd (fval x + fval y) /\ ffin (x + y)%float.
Proof.
  intros Hx Hy Hb. unfold fval, ffin in *. rewrite add_equiv.
  pose proof (Bplus_correct _ _ Hprec Hmax mode_NE _ _ Hx Hy) as C.
  cbn [round_mode] in C.
  rewrite Rlt_bool_true in C by exact Hb. destruct C as (A & B & _). auto.
Qed.

Lemma fsub_correct x y : ffin x -> ffin y -> Rabs (rnd (fval x - fval y)) < big ->
  fval (x - y)%float = rnd (fval x - fval y) /\ ffin (x - y)%float.
Proof.
  intros Hx Hy Hb. unfold fval, ffin in *. rewrite sub_equiv.
  pose proof (Bminus_correct _ _ Hprec Hmax mode_NE _ _ Hx Hy) as C.
  cbn [round_mode] in C.
  rewrite Rlt_bool_true in C by exact Hb. destruct C as (A & B & _). auto.
Qed.

Lemma fmul_correct x y : ffin x -> ffin y -> Rabs (rnd (fval x * fval y)) < big ->
  fval (x * y)%float = rnd (fval x * fval y) /\ ffin (x * y)%float.
Proof.
  intros Hx Hy Hb. unfold fval, ffin in *. rewrite mul_equiv.
  pose proof (Bmult_correct _ _ Hprec Hmax mode_NE (Prim2B x) (Prim2B y)) as C.
  cbn [round_mode] in C.
  rewrite Rlt_bool_true in C by exact Hb. destruct C as (A & B & _).
  rewrite Hx, Hy in B. auto.
Qed.

Lemma fdiv_correct x y : ffin x -> fval y <> 0 -> Rabs (rnd (fval x / fval y)) < big ->
  fval (x / y)%float = rnd (fval x / fval y) /\ ffin (x / y)%float.
Proof.
  intros Hx Hy Hb. unfold fval, ffin in *. rewrite div_equiv.
  pose proof (Bdiv_correct _ _ Hprec Hmax mode_NE (Prim2B x) (Prim2B y) Hy) as C.
  cbn [round_mode] in C.
  rewrite Rlt_bool_true in C by exact Hb. destruct C as (A & B & _).
  rewrite Hx in B. auto.
Qed.

Lemma fltb_correct x y : ffin x -> ffin y -> reflect (fval x < fval y) (x <? y)%float.
Proof.
  intros Hx Hy. unfold fval. rewrite ltb_equiv, Bltb_correct by assumption.
  apply iff_reflect. destruct (Rlt_bool_spec (B2R (Prim2B x)) (B2R (Prim2B y)));
    split; intros; try reflexivity; try discriminate; lra.
Qed.
Lemma fleb_correct x y : ffin x -> ffin y -> reflect (fval x <= fval y) (x <=? y)%float.
Proof.
  intros Hx Hy. unfold fval. rewrite leb_equiv, Bleb_correct by assumption.
  apply iff_reflect. destruct (Rle_bool_spec (B2R (Prim2B x)) (B2R (Prim2B y)));
    split; intros; try reflexivity; try discriminate; lra.
Qed.
Lemma feqb_correct x y : ffin x -> ffin y -> reflect (fval x = fval y) (x =? y)%float.
Proof.
  intros Hx Hy. unfold fval. rewrite eqb_equiv, Beqb_correct by assumption.
  apply iff_reflect. destruct (Req_bool_spec (B2R (Prim2B x)) (B2R (Prim2B y)));
    split; intros; try reflexivity; try discriminate; lra.
Qed.

Lemma ffin_spec x : ffin x <-> PrimFloat.is_finite x = true.
Proof. unfold ffin. rewrite is_finite_equiv. reflexivity. Qed.

(** between two finite numbers (in IEEE comparison) only finite numbers *)
Lemma between_finite lo x hi :
  PrimFloat.is_finite lo = true -> PrimFloat.is_finite hi = true ->
  (lo <=? x)%float = true -> (x <=? hi)%float = true -> ffin x.
Proof.
  rewrite !is_finite_equiv, !leb_equiv. unfold ffin, Bleb, SFleb.
  destruct (Prim2B x) as [s|s| |s m e H], (Prim2B lo) as [s1|s1| |s1 m1 e1 H1],
    (Prim2B hi) as [s2|s2| |s2 m2 e2 H2]; cbn; try discriminate; try reflexivity;
    destruct s; try discriminate; try destruct s1; try destruct s2; discriminate.
Qed.

(** ** non-negative finite numbers *)
Definition fnn (x : float) : Prop := ffin x /\ 0 <= fval x.

Lemma fval_zero : fval n0 = 0.
Proof. reflexivity. Qed.
Lemma ffin_zero : ffin n0.
Proof. reflexivity. Qed.

Lemma abs_small a x : 0 <= a -> a <= fval x -> Rabs (rnd a) < big.
Proof.
  intros H0 H. rewrite Rabs_pos_eq by (apply rnd_nonneg; assumption).
  apply Rle_lt_trans with (2 := fval_lt_big' x). apply rnd_le_fval, H.
Qed.

(** w in [0,1]: w*x in [0,x] *)
Lemma fmul_unit w x : ffin w -> 0 <= fval w <= 1 -> fnn x ->
  fnn (w * x)%float /\ fval (w * x)%float <= fval x.
Proof.
  intros Hw Hr (Hx & Hx0).
  assert (A : 0 <= fval w * fval x) by nra.
  assert (B : fval w * fval x <= fval x) by nra.
  destruct (fmul_correct w x Hw Hx (abs_small _ x A B)) as [E F].
  unfold fnn. rewrite E. repeat split; try assumption.
  - apply rnd_nonneg, A.
  - apply rnd_le_fval, B.
Qed.

(** division by d >= 1 *)
Lemma fdiv_ge1 x d : fnn x -> 1 <= fval d ->
  fnn (x / d)%float /\ fval (x / d)%float <= fval x.
Proof.
  intros (Hx & Hx0) Hd.
  assert (Hd0 : fval d <> 0) by lra.
  assert (P : 0 < / fval d <= 1).
  { split; [apply Rinv_0_lt_compat; lra|]. rewrite <- Rinv_1. apply Rinv_le; lra. }
  assert (A : 0 <= fval x / fval d) by (unfold Rdiv; nra).
  assert (B : fval x / fval d <= fval x) by (unfold Rdiv; nra).
  destruct (fdiv_correct x d Hx Hd0 (abs_small _ x A B)) as [E F].
  unfold fnn. rewrite E. repeat split; try assumption.
  - apply rnd_nonneg, A.
  - apply rnd_le_fval, B.
Qed.

(** difference of ordered non-negative numbers *)
Lemma fsub_ordered hi lo : fnn hi -> fnn lo -> fval lo <= fval hi ->
  fnn (hi - lo)%float /\ fval (hi - lo)%float <= fval hi.
Proof.
  intros (Hh & Hh0) (Hl & Hl0) H.
  assert (A : 0 <= fval hi - fval lo) by lra.
  assert (B : fval hi - fval lo <= fval hi) by lra.
  destruct (fsub_correct hi lo Hh Hl (abs_small _ hi A B)) as [E F].
  unfold fnn. rewrite E. repeat split; try assumption.
  - apply rnd_nonneg, A.
  - apply rnd_le_fval, B.
Qed.

Lemma fsub_same hi lo : fnn hi -> fnn lo -> fval lo = fval hi ->
  ffin (hi - lo)%float /\ fval (hi - lo)%float = 0.
Proof.
  intros (Hh & Hh0) (Hl & Hl0) H.
  assert (A : Rabs (rnd (fval hi - fval lo)) < big).
  { rewrite H, Rminus_diag_eq, rnd_0, Rabs_R0 by reflexivity. apply bpow_gt_0. }
  destruct (fsub_correct hi lo Hh Hl A) as [E F]. split; [exact F|].
  rewrite E, H, Rminus_diag_eq, rnd_0 by reflexivity. reflexivity.
Qed.

(** multiples of 2^900 with a factor up to 2^53 are doubles *)
Definition cap : R := bpow radix2 900.
Lemma cap_format k : (0 <= k <= 2 ^ 53)%Z -> generic_format radix2 fexp64 (IZR k * cap).
Proof.
  intro Hk. destruct (Z.eq_dec k (2 ^ 53)) as [->|Hn].
  - unfold cap. change (IZR (2 ^ 53)) with (bpow radix2 53). rewrite <- bpow_plus.
    apply generic_format_bpow. vm_compute. discriminate.
  - apply generic_format_FLT.
    apply FLT_spec with (f := Float radix2 k 900).
    + unfold cap, F2R; reflexivity.
    + cbn [Fnum]. rewrite Z.abs_eq by lia. change (radix2 ^ FloatOps.prec)%Z with (2 ^ 53)%Z. lia.
    + cbn; lia.
Qed.

Lemma cap_lt_big k : (0 <= k <= 2 ^ 53)%Z -> IZR k * cap < big.
Proof.
  intro Hk. apply Rle_lt_trans with (IZR (2 ^ 53) * cap).
  - apply Rmult_le_compat_r; [apply bpow_ge_0|apply IZR_le; lia].
  - unfold cap, big. change (IZR (2 ^ 53)) with (bpow radix2 53). rewrite <- bpow_plus.
    apply bpow_lt. lia.
Qed.

Lemma fadd_capped acc x k : (0 <= k < 2 ^ 53)%Z ->
  fnn acc -> fval acc <= IZR k * cap -> fnn x -> fval x <= cap ->
  fnn (acc + x)%float /\ fval (acc + x)%float <= IZR (k + 1) * cap /\
  fval acc <= fval (acc + x)%float /\
  (fval x = 0 -> fval (acc + x)%float = fval acc).
Proof.
  intros Hk (Ha & Ha0) Hac (Hx & Hx0) Hxc.
  assert (A : 0 <= fval acc + fval x) by lra.
  assert (B : fval acc + fval x <= IZR (k + 1) * cap).
  { rewrite plus_IZR. lra. }
  assert (C : rnd (fval acc + fval x) <= IZR (k + 1) * cap).
  { rewrite <- (round_generic radix2 fexp64 ZnearestE (IZR (k + 1) * cap))
      by (apply cap_format; lia). apply rnd_le, B. }
  assert (D : Rabs (rnd (fval acc + fval x)) < big).
  { rewrite Rabs_pos_eq by (apply rnd_nonneg, A).
    apply Rle_lt_trans with (1 := C). apply cap_lt_big; lia. }
  destruct (fadd_correct acc x Ha Hx D) as [E F].
  unfold fnn. rewrite E. repeat split; try assumption.
  - apply rnd_nonneg, A.
  - apply rnd_ge_fval. lra.
  - intros ->. rewrite Rplus_0_r. apply rnd_fval.
Qed.
