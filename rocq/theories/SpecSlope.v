(** Potential radiation on slopes. *)
From Coq Require Import ZArith Reals Floats.
From Verif Require Import F64 SpecRad SpecNumber.
Open Scope R_scope.

(** the sun is well off the great circle through east, zenith and west (3.5 arc minutes), or well below the horizon *)
Definition clear_of_east_west (doy hour minute : Z) (lon lat tz : R) : Prop :=
  1 / 10 ^ 3 <= Rabs (sun_north doy hour minute lon lat tz) \/ sun_height doy hour minute lon lat tz <= - (1 / 10 ^ 3).
(** an arc sine correct to 1e-15 *)
Definition good_arcsine (asinf : float -> float) : Prop :=
  forall x, PrimFloat.is_finite x = true -> Rabs (fval x) <= 1 ->
    PrimFloat.is_finite (asinf x) = true /\ Rabs (fval (asinf x) - asin (fval x)) <= 1 / 10 ^ 15.
(** direct and diffuse radiation on a slope that faces [az], exactly *)
Definition direct_on_slope (doy hour minute : Z) (lon lat tz slope az cl : R) : R :=
  let H := sun_height doy hour minute lon lat tz in
  Rmax 0 (1367 * sun_ratio doy * ((0.6 + 0.2 * day_height H) * (1 - cl)) * incidence slope az H (sun_azimuth doy hour minute lon lat tz)).
Definition diffuse_on_slope (doy hour minute : Z) (lon lat tz cl : R) : R :=
  let H := sun_height doy hour minute lon lat tz in 1367 * sun_ratio doy * ((0.3 + 0.1 * day_height H) * cl) * day_height H.
