(** Potential radiation in doubles: what is asked of the trigonometric functions. *)
From Coq Require Import ZArith Reals Floats.
From Verif Require Import F64 SpecSineRound.
Open Scope R_scope.

(** never outside -1..1 (what is not a number stays possible) *)
Definition bounded_by_1 (f : float -> float) : Prop :=
  forall x, is_nan (f x) = true \/ (PrimFloat.is_finite (f x) = true /\ Rabs (fval (f x)) <= 1).
(** a sine correct to 1e-15 on arguments up to 1000 *)
Definition good_sine (sinf : float -> float) : Prop :=
  forall x, PrimFloat.is_finite x = true -> Rabs (fval x) <= 1000 ->
    PrimFloat.is_finite (sinf x) = true /\ Rabs (fval (sinf x)) <= 1 /\
    Rabs (fval (sinf x) - sin (fval x)) <= 1 / 10 ^ 15.
(** exact at 0 *)
Definition exact_at_0 (sinf cosf : float -> float) : Prop :=
  (sinf 0 =? 0)%float = true /\ (cosf 0 =? 1)%float = true.

(** places and times: degrees up to 1000 and hours up to 100 in absolute value *)
Definition degrees (x : float) : Prop := PrimFloat.is_finite x = true /\ Rabs (fval x) <= 1000.
Definition zone (x : float) : Prop := PrimFloat.is_finite x = true /\ Rabs (fval x) <= 100.
Definition cloudiness (x : float) : Prop := PrimFloat.is_finite x = true /\ 0 <= fval x <= 1.
(** finite and within [e] of [r] *)
Definition within (e : R) (x : float) (r : R) : Prop := PrimFloat.is_finite x = true /\ Rabs (fval x - r) <= e.
(** finite, not negative and at most [m] *)
Definition up_to (m : R) (x : float) : Prop := PrimFloat.is_finite x = true /\ 0 <= fval x <= m.
