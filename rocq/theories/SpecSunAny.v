(** Sun times in doubles: what is asked of tangent and arc cosine. *)
From Coq Require Import ZArith Reals Floats.
From Verif Require Import F64 SpecSineRound SpecPotAny.
Open Scope R_scope.

(** the tangent: finite on arguments up to 1000, correct to 1e-15 of its size on -1.56..1.56 *)
Definition good_tangent (tanf : float -> float) : Prop :=
  (forall x, PrimFloat.is_finite x = true -> Rabs (fval x) <= 1000 -> PrimFloat.is_finite (tanf x) = true /\ Rabs (fval (tanf x)) <= 10 ^ 30) /\
  (forall x, PrimFloat.is_finite x = true -> Rabs (fval x) <= 1.56 -> Rabs (fval (tanf x) - tan (fval x)) <= 1 / 10 ^ 15 * (1 + Rabs (tan (fval x)))).
(** the arc cosine: on -1..1 between 0 and the double pi, and correct to 1e-15 *)
Definition good_arccosine (acosf : float -> float) : Prop :=
  forall x, PrimFloat.is_finite x = true -> Rabs (fval x) <= 1 ->
    PrimFloat.is_finite (acosf x) = true /\ 0 <= fval (acosf x) <= fval np_pi /\ Rabs (fval (acosf x) - acos (fval x)) <= 1 / 10 ^ 15.

(** the cosine of the hour angle at sunrise: below -1 the sun never sets, above 1 it never rises *)
Definition rise_cos (decl lat : R) : R := - tan (lat * (PI / 180)) * tan decl.
(** a time of sunrise within [e] of [r], a day later if [r] is before midnight *)
Definition rises (e : R) (x : float) (r : R) : Prop :=
  exists k, (k = 0 \/ k = 24) /\ (r < - e -> k = 24) /\ (e <= r -> k = 0) /\ within e x (r + k).
(** a time of sunset within [e] of [r], a day earlier if [r] is after midnight *)
Definition sets (e : R) (x : float) (r : R) : Prop :=
  exists k, (k = 0 \/ k = 24) /\ (24 + e < r -> k = 24) /\ (r <= 24 - e -> k = 0) /\ within e x (r - k).
