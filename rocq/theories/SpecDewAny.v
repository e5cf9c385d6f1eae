(** Hourly humidity with a linear course of the dew point, in doubles. *)
From Coq Require Import ZArith List Reals Floats.
From Verif Require Import F64 SpecVapAny.
Open Scope R_scope.

(** dew point at hour [h] of a day with minimum [m] before a day with minimum [m'] *)
Definition dew_course (a0 a1 : R) (kr : Z) (m m' : R) (h : nat) : R :=
  a0 + a1 * m + INR h / 24 * (a1 * m' - a1 * m) + 1 / 2 * sin ((INR h + 1) * PI / IZR kr - 3 * PI / 4).
(** saturation pressure over water from 273.15 K on, over ice below *)
Definition saturation_at (T : R) : R := saturation_R (if Rle_dec 273.15 T then true else false) T.
(** the following day, the last one repeated *)
Definition day_after {A} (l : list A) (i : nat) : option A :=
  if Nat.eqb (S i) (length l) then nth_error l i else nth_error l (S i).
(** coefficients of the regression: at most [b] in size *)
Definition coefficient (b : R) (a : float) : Prop := PrimFloat.is_finite a = true /\ Rabs (fval a) <= b.
