(** Adding doubles in any order. *)
From Coq Require Import List Floats Permutation.
Import ListNotations.

(** [x] is obtained from the numbers [l] by additions in some order and grouping *)
Inductive adds : list float -> float -> Prop :=
| adds_one x : adds [x] x
| adds_two l1 l2 l a b : adds l1 a -> adds l2 b -> Permutation l (l1 ++ l2) -> adds l (a + b)%float.

(** a function that adds the 24 numbers of a day in some order, possibly starting from zeros *)
Definition adds_somehow (tot : list float -> float) : Prop :=
  forall l, length l = 24 -> Forall (fun x => PrimFloat.is_nan x = false) l ->
  exists k, k <= 24 /\ adds (repeat 0%float k ++ l) (tot l).
