(** When the computed radiation of a place is a number. *)
From Coq Require Import ZArith Reals Floats.
From Verif Require Import F64 SpecRad.
Open Scope R_scope.

(** how far north the sun stands: the northward component of the unit vector pointing to it *)
Definition sun_north (doy hour minute : Z) (lon lat tz : R) : R :=
  sin (sun_decl doy) * cos (lat * (PI / 180)) - cos (sun_decl doy) * sin (lat * (PI / 180)) * cos (sun_hour_angle hour minute lon tz).
(** the sun is at least 1e-5 off the great circle through east, zenith and west, or at least 1e-5 below the horizon *)
Definition off_east_west (doy hour minute : Z) (lon lat tz : R) : Prop :=
  1 / 10 ^ 5 <= Rabs (sun_north doy hour minute lon lat tz) \/ sun_height doy hour minute lon lat tz <= - (1 / 10 ^ 5).
(** an arc sine that returns numbers up to 1.6 on -1..1 *)
Definition usable_arcsine (asinf : float -> float) : Prop :=
  forall x, PrimFloat.is_finite x = true -> Rabs (fval x) <= 1 ->
    PrimFloat.is_finite (asinf x) = true /\ Rabs (fval (asinf x)) <= 1.6.
