(** Readings as doubles, and what was observed at an hour of a record. *)
From Coq Require Import ZArith List Bool Floats.
Import ListNotations.
Open Scope Z_scope.

(** zero, or between 2^-800 and 2^900 in absolute value *)
Definition reading (x : float) : Prop :=
  (((abs x =? 0) || (0x1p-800 <=? abs x)) && (abs x <=? 0x1p900))%float = true.

(** the value at the k-th hour: the column taken at this hour of the day, on this day *)
Fixpoint column_for {A} (h : Z) (cols : list (Z * list A)) : option (list A) :=
  match cols with [] => None | (h', v) :: r => if h' =? h then Some v else column_for h r end.
Definition seen (cols : list (Z * list float)) (k : nat) : float :=
  match column_for (Z.of_nat (k mod 24)) cols with Some v => nth (k / 24) v nan | None => nan end.
Definition gone (x : float) : bool := PrimFloat.is_nan x.
