(** Days of radiation against the clear sky. *)
From Coq Require Import ZArith List Reals Floats.
From Verif Require Import SpecBase SpecUtil SpecRad F64 SpecSky.
Import ListNotations.
Open Scope R_scope.

(** the hour [v] where a day with the clear sky [sky] has the mean [g]: its share of the mean up to 3*10^-8 of [g],
    or nothing where that share is below 0.01 (up to the same error) *)
Definition clear_share (sky : list R) (g : R) (s : R) (v : float) : Prop :=
  let y := s / Rmean sky * g in
  PrimFloat.is_finite v = true /\
  (((v =? 0)%float = true /\ y < 1 / 100 + 1 / 10 ^ 15 + 3 / 10 ^ 8 * g) \/
   ((0x1.47ae147ae147bp-7 <=? v)%float = true /\ Rabs (fval v - y) <= 3 / 10 ^ 8 * g)).
