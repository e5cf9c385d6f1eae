(** Vocabulary of property C140: a record and its two pieces. *)
From Coq Require Import String ZArith List.
From Verif Require Import Num Frame WindModel SpecRad.
Import ListNotations.
Open Scope Z_scope.

(** [d] covers n1 + n2 days from d0, [d1] the first n1 and [d2] the other n2 of them, with the same values *)
Definition two_pieces (d d1 d2 : dframe xr) (d0 : Z) (n1 n2 : nat) : Prop :=
  day_frame d1 d0 n1 /\ day_frame d2 (d0 + Z.of_nat n1) n2 /\ day_frame d d0 (n1 + n2) /\
  forall c l1 l2, has_column d1 c l1 -> has_column d2 c l2 -> has_column d c (l1 ++ l2).
(** results of wind one after the other *)
Definition wind_then (a b : wind_out) : option wind_out :=
  match a, b with WSeries s, WSeries t => Some (WSeries (s ++ t)) | WArray l, WArray m => Some (WArray (l ++ m)) | _, _ => None end.
