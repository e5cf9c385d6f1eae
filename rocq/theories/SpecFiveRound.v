(** What is asked of a function that adds up a few doubles. *)
From Coq Require Import List Bool Reals Floats.
From Verif Require Import SpecBase F64.
Import ListNotations.

(** a double between 0 and 2^900 *)
Definition moderate (x : float) : Prop := ((0 <=? x) && (x <=? 0x1p900))%float = true.

(** at most eight such doubles are added up to a finite double that is off by at most 10^-14 of the exact sum *)
Definition sums_within (tot : list float -> float) : Prop :=
  forall l, (length l <= 8)%nat -> Forall moderate l ->
    PrimFloat.is_finite (tot l) = true /\ (0 <= fval (tot l))%R /\
    (Rabs (fval (tot l) - Rsum (map fval l)) <= 1 / 10 ^ 14 * Rsum (map fval l))%R.
