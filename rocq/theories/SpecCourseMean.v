(** What it means for a day of doubles to be a course moved to the daily mean. *)
From Coq Require Import ZArith List Bool Reals Floats.
From Verif Require Import SpecBase SpecUtil F64 SpecCourseRound.
Import ListNotations.

(** how far an hour may be off: 4*10^-14 of the daily range, 2*10^-16 of the daily mean, and 10^-300 *)
Definition mean_tolerance (lo hi m : float) : R :=
  (4 / 10 ^ 14 * (fval hi - fval lo) + 2 / 10 ^ 16 * Rabs (fval m) + 1 / 10 ^ 300)%R.

(** the 24 hours [ws] of a day with minimum [lo], maximum [hi] and mean [m] for the course [vs] *)
Definition moved_to (lo hi m : float) (vs ws : list float) : Prop :=
  length ws = 24%nat /\
  (forall h v w, nth_error vs h = Some v -> nth_error ws h = Some w ->
     PrimFloat.is_finite w = true /\
     (Rabs (fval w - (fval m + (fval hi - fval lo) * (fval v - Rmean (map fval vs)))) <= mean_tolerance lo hi m)%R) /\
  (Rabs (Rmean (map fval ws) - fval m) <= mean_tolerance lo hi m)%R /\
  (forall h k v v' w w', nth_error vs h = Some v -> nth_error vs k = Some v' -> nth_error ws h = Some w -> nth_error ws k = Some w' ->
     (v <=? v')%float = true -> (w <=? w')%float = true) /\
  ((lo =? hi)%float = true -> Forall (fun w => (w =? m)%float = true) ws).
