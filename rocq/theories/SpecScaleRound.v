(** What is asked of a mean of doubles, and what it means for a day of doubles to be a course scaled to a
    given daily mean. *)
From Coq Require Import ZArith List Bool Reals Floats.
From Verif Require Import SpecBase SpecUtil F64 SpecFiveRound SpecCourseRound.
Import ListNotations.

(** the mean of 24 doubles between 0 and 2^900 is finite and off by at most 3*10^-14 of the exact mean (and
    10^-300 for means next to nothing) *)
Definition means_within (mean : list float -> float) : Prop :=
  forall l, length l = 24%nat -> Forall moderate l ->
    PrimFloat.is_finite (mean l) = true /\ (0 <= fval (mean l))%R /\
    (Rabs (fval (mean l) - Rmean (map fval l)) <= 3 / 10 ^ 14 * Rmean (map fval l) + 1 / 10 ^ 300)%R.

(** between 0 and 2^400 *)
Definition intensity (x : float) : Prop := ((0 <=? x) && (x <=? 0x1p400))%float = true.
(** 24 intensities that are not all next to nothing *)
Definition lit_day (p : list float) : Prop :=
  length p = 24%nat /\ Forall intensity p /\ exists x, In x p /\ (0x1p-300 <=? x)%float = true.

(** the hourly value [w] where the exact one would be [y]: either y is kept up to 10^-13, or it is below 0.01 and
    w is 0 (0x1.47ae147ae147bp-7 is the double 0.01) *)
Definition scaled_hour (y : R) (w : float) : Prop :=
  PrimFloat.is_finite w = true /\
  (((w =? 0)%float = true /\ (y < 1 / 100 + 1 / 10 ^ 15)%R) \/
   ((0x1.47ae147ae147bp-7 <=? w)%float = true /\ (Rabs (fval w - y) <= 1 / 10 ^ 13 * y)%R)).

(** the hours [w] are the course [p] scaled to the mean [g] *)
Definition scaled_to (p : list float) (g : float) (w : list float) : Prop :=
  length w = 24%nat /\
  (forall h x v, nth_error p h = Some x -> nth_error w h = Some v ->
     scaled_hour (fval x / Rmean (map fval p) * fval g) v /\
     ((x =? 0)%float = true \/ (g =? 0)%float = true -> (v =? 0)%float = true)) /\
  (forall h k x y v u, nth_error p h = Some x -> nth_error p k = Some y -> nth_error w h = Some v -> nth_error w k = Some u ->
     (x <=? y)%float = true -> (v <=? u)%float = true) /\
  (fval g - 1 / 100 - (1 / 10 ^ 13 * fval g + 1 / 10 ^ 15) <= Rmean (map fval w) <= fval g + 1 / 10 ^ 13 * fval g)%R.
