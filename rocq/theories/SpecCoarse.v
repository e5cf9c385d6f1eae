(** Levels of the cascade and its 5-minute output, stated without the loop. *)
From Coq Require Import ZArith List Bool Reals.
From Verif Require Import Num Cal SpecBase.
Import ListNotations.
Open Scope Z_scope.

(** start and length of box j of level L in a series that begins on day d0 *)
Definition box_length (L : nat) : Z := us_day / 2 ^ Z.of_nat L.
Definition box_start (d0 : Z) (L j : nat) : Z := d0 * us_day + Z.of_nat j * box_length L.

(** a missing amount counts as dry *)
Definition depth (a : xr) : R := match a with Fin r => r | _ => 0%R end.

(** 5-minute rows that are absent at the end of the output of levels 1, 2, ..., 8 *)
Definition lost_rows (L : nat) : nat := nth L [0; 143; 71; 35; 17; 8; 4; 2; 1]%nat 0%nat.

(** arrays of consecutive levels: twice as many boxes, the two halves of a box add up to it *)
Definition halves (parent child : list R) : Prop :=
  length child = (2 * length parent)%nat /\
  forall i, (i < length parent)%nat ->
    (nth (2 * i) child 0 + nth (2 * i + 1) child 0 = nth i parent 0)%R.
Fixpoint halving (v : list R) (levels : list (list R)) : Prop :=
  match levels with
  | [] => True
  | w :: rest => halves v w /\ halving w rest
  end.
