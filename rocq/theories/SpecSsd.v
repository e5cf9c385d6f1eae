(** Radiation from sunshine duration in doubles. *)
From Coq Require Import ZArith List Bool Reals Floats.
From Verif Require Import SpecBase SpecUtil SpecRad F64 SpecSky SpecFiveRound SpecCourseRound SpecScaleRound SpecRadAny.
Import ListNotations.
Open Scope R_scope.

(** 24 potential values between 0 and 2^19 that are not all next to nothing *)
Definition potential_day (p : list float) : Prop := lit_day p /\ Forall (fun x => (x <=? 0x1p19)%float = true) p.
(** parameters between 0 and 1, a sunshine duration not above the day length *)
Definition sunny (a b s dl : float) : Prop :=
  fraction a /\ fraction b /\ SpecRadAny.amount s /\ duration dl /\ (s <=? dl)%float = true.
(** the part of the potential radiation Angstroem's formula lets through *)
Definition passing (a b s dl : float) : R := fval a + fval b * (fval s / fval dl).

(** the hour [v] where the sky lets the part [k] of the clear-sky radiation [s] through and the clear sky of the day has
    the mean [m] *)
Definition sunshine_hour (k m s : R) (v : float) : Prop :=
  PrimFloat.is_finite v = true /\
  (((v =? 0)%float = true /\ k * s < 1 / 100 + 1 / 10 ^ 15 + 2 / 10 ^ 7 * m) \/
   ((0x1.47ae147ae147bp-7 <=? v)%float = true /\ Rabs (fval v - k * s) <= 2 / 10 ^ 7 * m)).
