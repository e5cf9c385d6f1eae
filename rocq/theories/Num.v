(** Number types the models run on.

    Model code is written against the operation class [Num]; it carries no laws.
    Two instances:
    - [float] : IEEE-754 binary64 (Coq primitive floats), what CPython/numpy use;
    - [xr]    : exact reals extended by +inf, -inf and NaN (no rounding). *)
From Coq Require Import ZArith Reals Bool List Lra Lia.
From Coq Require Import Floats Uint63.
Import ListNotations.

Class Num (T : Type) : Type := {
  n_add : T -> T -> T;
  n_sub : T -> T -> T;
  n_mul : T -> T -> T;
  n_div : T -> T -> T;
  n_opp : T -> T;
  n_ltb : T -> T -> bool;          (* IEEE comparisons: false when NaN is involved *)
  n_leb : T -> T -> bool;
  n_eqb : T -> T -> bool;
  n_isnan : T -> bool;
  n_nan : T;
  n_ofZ : Z -> T
}.

Declare Scope num_scope.
Delimit Scope num_scope with num.
Infix "+" := n_add : num_scope.
Infix "-" := n_sub : num_scope.
Infix "*" := n_mul : num_scope.
Infix "/" := n_div : num_scope.
Notation "- x" := (n_opp x) : num_scope.
Infix "<?" := n_ltb : num_scope.
Infix "<=?" := n_leb : num_scope.
Infix "=?" := n_eqb : num_scope.
(** Python's [a > b] *)
Notation "x >? y" := (n_ltb y x) : num_scope.

Section Generic.
  Context {T : Type} {N : Num T}.
  Definition n0 : T := n_ofZ 0.
  Definition n1 : T := n_ofZ 1.
  (** the decimal literal m * 10^-k: for |m|, 10^k < 2^53 and k <= 22 both operands are
      exact doubles and the quotient is the correctly rounded literal, as in CPython *)
  Definition lit (m : Z) (k : Z) : T := (n_ofZ m / n_ofZ (10 ^ k))%num.
End Generic.

(** ** binary64 *)
Definition f64_ofZ (z : Z) : float :=
  match z with
  | Z0 => PrimFloat.of_uint63 (Uint63.of_Z 0)
  | Zpos _ => PrimFloat.of_uint63 (Uint63.of_Z z)
  | Zneg p => PrimFloat.opp (PrimFloat.of_uint63 (Uint63.of_Z (Zpos p)))
  end.

Definition f64_isnan (x : float) : bool := negb (PrimFloat.eqb x x).

#[export] Instance Num_f64 : Num float := {
  n_add := PrimFloat.add; n_sub := PrimFloat.sub; n_mul := PrimFloat.mul;
  n_div := PrimFloat.div; n_opp := PrimFloat.opp;
  n_ltb := PrimFloat.ltb; n_leb := PrimFloat.leb; n_eqb := PrimFloat.eqb;
  n_isnan := f64_isnan; n_nan := PrimFloat.nan; n_ofZ := f64_ofZ }.

(** ** exact extended reals *)
Inductive xr : Type := Fin (r : R) | PInf | NInf | NaN.

Definition Rltb (a b : R) : bool := if Rlt_dec a b then true else false.
Definition Rleb (a b : R) : bool := if Rle_dec a b then true else false.
Definition Reqb (a b : R) : bool := if Req_EM_T a b then true else false.

Lemma Rltb_spec a b : reflect (a < b)%R (Rltb a b).
Proof. unfold Rltb; destruct (Rlt_dec a b); constructor; assumption. Qed.
Lemma Rleb_spec a b : reflect (a <= b)%R (Rleb a b).
Proof. unfold Rleb; destruct (Rle_dec a b); constructor; assumption. Qed.
Lemma Reqb_spec a b : reflect (a = b) (Reqb a b).
Proof. unfold Reqb; destruct (Req_EM_T a b); constructor; assumption. Qed.

Definition xopp (a : xr) : xr :=
  match a with Fin r => Fin (- r) | PInf => NInf | NInf => PInf | NaN => NaN end.

Definition xadd (a b : xr) : xr :=
  match a, b with
  | NaN, _ | _, NaN => NaN
  | Fin x, Fin y => Fin (x + y)
  | PInf, NInf | NInf, PInf => NaN
  | PInf, _ | _, PInf => PInf
  | NInf, _ | _, NInf => NInf
  end.

Definition xsub (a b : xr) : xr := xadd a (xopp b).

(** an infinity multiplied/divided by a finite sign *)
Definition xsgn (pos : bool) : xr := if pos then PInf else NInf.

Definition xmul (a b : xr) : xr :=
  match a, b with
  | NaN, _ | _, NaN => NaN
  | Fin x, Fin y => Fin (x * y)
  | Fin x, PInf | PInf, Fin x =>
      if Reqb x 0 then NaN else xsgn (Rltb 0 x)
  | Fin x, NInf | NInf, Fin x =>
      if Reqb x 0 then NaN else xsgn (Rltb x 0)
  | PInf, PInf | NInf, NInf => PInf
  | PInf, NInf | NInf, PInf => NInf
  end.

(** zero is unsigned here: x/0 is treated as x/+0 *)
Definition xdiv (a b : xr) : xr :=
  match a, b with
  | NaN, _ | _, NaN => NaN
  | Fin x, Fin y =>
      if Reqb y 0 then (if Reqb x 0 then NaN else xsgn (Rltb 0 x))
      else Fin (x / y)
  | Fin _, _ => Fin 0
  | PInf, Fin y => xsgn (Rleb 0 y)
  | NInf, Fin y => xsgn (negb (Rleb 0 y))
  | _, _ => NaN
  end.

Definition xltb (a b : xr) : bool :=
  match a, b with
  | NaN, _ | _, NaN => false
  | Fin x, Fin y => Rltb x y
  | NInf, NInf => false
  | NInf, _ => true
  | _, NInf => false
  | PInf, _ => false
  | Fin _, PInf => true
  end.

Definition xeqb (a b : xr) : bool :=
  match a, b with
  | Fin x, Fin y => Reqb x y
  | PInf, PInf | NInf, NInf => true
  | _, _ => false
  end.

Definition xleb (a b : xr) : bool :=
  match a, b with
  | NaN, _ | _, NaN => false
  | Fin x, Fin y => Rleb x y
  | NInf, _ => true
  | _, NInf => false
  | _, PInf => true
  | PInf, _ => false
  end.

Definition xisnan (a : xr) : bool := match a with NaN => true | _ => false end.

#[export] Instance Num_xr : Num xr := {
  n_add := xadd; n_sub := xsub; n_mul := xmul; n_div := xdiv; n_opp := xopp;
  n_ltb := xltb; n_leb := xleb; n_eqb := xeqb;
  n_isnan := xisnan; n_nan := NaN; n_ofZ := fun z => Fin (IZR z) }.

(** elementary facts used everywhere *)
Lemma xadd_Fin a b : (Fin a + Fin b)%num = Fin (a + b).
Proof. reflexivity. Qed.
Lemma xsub_Fin a b : (Fin a - Fin b)%num = Fin (a - b).
Proof. reflexivity. Qed.
Lemma xmul_Fin a b : (Fin a * Fin b)%num = Fin (a * b).
Proof. reflexivity. Qed.
Lemma xdiv_Fin a b : b <> 0%R -> (Fin a / Fin b)%num = Fin (a / b).
Proof. intro H; cbn; destruct (Reqb_spec b 0); [contradiction|reflexivity]. Qed.
Lemma xltb_Fin a b : (Fin a <? Fin b)%num = Rltb a b.
Proof. reflexivity. Qed.
Lemma xleb_Fin a b : (Fin a <=? Fin b)%num = Rleb a b.
Proof. reflexivity. Qed.
Lemma xeqb_Fin a b : (Fin a =? Fin b)%num = Reqb a b.
Proof. reflexivity. Qed.
Lemma n0_xr : (n0 : xr) = Fin 0.
Proof. reflexivity. Qed.
Lemma n1_xr : (n1 : xr) = Fin 1.
Proof. reflexivity. Qed.
Lemma lit_xr m k : (0 <= k)%Z -> (lit m k : xr) = Fin (IZR m / IZR (10 ^ k)).
Proof.
  intro Hk; unfold lit; cbn [n_ofZ Num_xr n_div xdiv].
  destruct (Reqb_spec (IZR (10 ^ k)) 0) as [E|_]; [|reflexivity].
  exfalso. apply eq_IZR in E. assert (0 < 10 ^ k)%Z by (apply Z.pow_pos_nonneg; lia). lia.
Qed.
