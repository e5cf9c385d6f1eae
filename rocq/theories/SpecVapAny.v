(** Vapour pressure and dew point in doubles. *)
From Coq Require Import ZArith Reals Floats.
From Verif Require Import F64.
Open Scope R_scope.

(** what is asked of exponential function and logarithm: relative error 1e-15, absolute error 1e-14 *)
Definition good_exponential (expf : float -> float) : Prop :=
  forall x, PrimFloat.is_finite x = true -> Rabs (fval x) <= 20 ->
    PrimFloat.is_finite (expf x) = true /\ Rabs (fval (expf x) - exp (fval x)) <= 1 / 10 ^ 15 * exp (fval x).
Definition good_logarithm (logf : float -> float) : Prop :=
  forall x, PrimFloat.is_finite x = true -> 1 / 10 ^ 20 <= fval x <= 10 ^ 20 ->
    PrimFloat.is_finite (logf x) = true /\ Rabs (fval (logf x) - ln (fval x)) <= 1 / 10 ^ 14.

(** temperatures from 150 K to 400 K, humidities from 0 to 100 percent *)
Definition air (t : float) : Prop := PrimFloat.is_finite t = true /\ 150 <= fval t <= 400.
Definition humid (h : float) : Prop := PrimFloat.is_finite h = true /\ 0 <= fval h <= 100.
(** at or above the double next to 273.15 *)
Definition thawing (t : float) : bool := (0x1.1126666666666p+8 <=? t)%float.

(** the Magnus formula over water and over ice: exponent, saturation pressure in hPa, and its inverse *)
Definition magnus (water : bool) (T : R) : R :=
  if water then 17.62 * (T - 273.15) / (243.12 + (T - 273.15)) else 22.46 * (T - 273.15) / (272.62 + (T - 273.15)).
Definition saturation_R (water : bool) (T : R) : R := 6.112 * exp (magnus water T).
Definition dew_R (water : bool) (v : R) : R :=
  let l := ln (v / 6.112) in
  (if water then 243.12 * l / (17.62 - l) else 272.62 * l / (22.46 - l)) + 273.15.
(** finite, and within [e] of [r] relatively, up to 1e-300 *)
Definition relatively (e : R) (x : float) (r : R) : Prop := PrimFloat.is_finite x = true /\ Rabs (fval x - r) <= e * r + 1 / 10 ^ 300.
(** the exact relative humidity of air with dew point [d] and temperature [x] *)
Definition humidity_R (d x : float) : R := Rmin 100 (100 * saturation_R (thawing d) (fval d) / saturation_R (thawing x) (fval x)).
