(** Radiation of the clear sky at a place. *)
From Coq Require Import ZArith List Bool Reals.
From Verif Require Import Num Cal SpecBase SpecRad.
Import ListNotations.
Open Scope Z_scope.

(** on flat ground: solar constant, distance of the sun, transmissivity growing with the height of the sun *)
Definition clear_sky (doy hour : Z) (lon lat tz : R) : R :=
  let c := day_height (sun_height doy hour 0 lon lat tz) in
  (1367 * sun_ratio doy * (0.6 + 0.2 * c) * c)%R.
(** the 24 hours of a day *)
Definition sky_day (day : Z) (lon lat tz : R) : list R :=
  map (fun h => clear_sky (doy_of_day day) (Z.of_nat h) lon lat tz) (seq 0 24).
(** the sun is never exactly in the zenith at a full hour, and it is above the horizon at one of them *)
Definition ordinary_day (day : Z) (lon lat tz : R) : Prop :=
  (forall h, (h < 24)%nat -> (sun_height (doy_of_day day) (Z.of_nat h) 0 lon lat tz < 1)%R) /\
  exists h, (h < 24)%nat /\ (0 < sun_height (doy_of_day day) (Z.of_nat h) 0 lon lat tz)%R.
