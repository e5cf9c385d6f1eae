(** A day of hourly doubles with missing values, and what is asked of a function that adds it up. *)
From Coq Require Import ZArith List Bool Reals Floats.
From Verif Require Import SpecBase F64 SpecFiveRound SpecMasterRound.
Import ListNotations.

(** the values that are not missing *)
Fixpoint known (l : list float) : list float :=
  match l with nil => nil | x :: r => if PrimFloat.is_nan x then known r else x :: known r end.
(** at most 24 values, missing or between 0 and 2^900, not all missing *)
Definition hourly_day (l : list float) : Prop :=
  (length l <= 24)%nat /\ Forall moderate (known l) /\ known l <> [].
(** the sum is finite, not negative and off by at most 2.8*10^-14 of the exact sum *)
Definition day_sums_within (tot : list float -> float) : Prop :=
  forall l, hourly_day l ->
    PrimFloat.is_finite (tot l) = true /\ (0 <= fval (tot l))%R /\
    (Rabs (fval (tot l) - Rsum (map fval (known l))) <= 28 / 10 ^ 15 * Rsum (map fval (known l)))%R.
(** adding the values that are not missing in some order, possibly starting from zeros *)
Definition adds_known (tot : list float -> float) : Prop :=
  forall l, hourly_day l -> exists k, (k <= 24)%nat /\ adds (repeat 0%float k ++ known l) (tot l).
