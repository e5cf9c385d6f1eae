(** Doubles of moderate size, and what it means for a day of doubles to follow a course. *)
From Coq Require Import ZArith List Bool Reals Floats.
From Verif Require Import Cal SpecBase F64.
Import ListNotations.

(** at most 2^900 in absolute value *)
Definition tame (x : float) : Prop := ((-0x1p900 <=? x) && (x <=? 0x1p900))%float = true.
(** between 0 and 1 *)
Definition in_unit (x : float) : Prop := ((0 <=? x) && (x <=? 1))%float = true.

(** a table column with one value for each of the 24 hours *)
Definition day_column (g : list float) : list (Z * float) := combine (map Z.of_nat (seq 0 24)) g.

(** the value [w] for course value [v] between [lo] and [hi], up to rounding *)
Definition follows (lo hi v w : float) : Prop :=
  PrimFloat.is_finite w = true /\ (lo <=? w)%float = true /\
  ((v =? 0)%float = true -> (w =? lo)%float = true) /\
  (Rabs (fval w - (fval v * (fval hi - fval lo) + fval lo))
   <= 1 / 10 ^ 15 * Rmax (Rabs (fval lo)) (Rabs (fval hi)) + 1 / 10 ^ 300)%R.

(** a column scaled to [0,1]: order kept, smallest 0, largest 1 *)
Definition scaled (raw norm : list (Z * float)) : Prop :=
  map fst norm = map fst raw /\
  Forall (fun p => in_unit (snd p)) norm /\
  (exists i x, nth_error raw i = Some x /\ (forall y, In y raw -> (snd x <=? snd y)%float = true) /\
     exists z, nth_error norm i = Some z /\ (snd z =? 0)%float = true) /\
  (exists i x, nth_error raw i = Some x /\ (forall y, In y raw -> (snd y <=? snd x)%float = true) /\
     exists z, nth_error norm i = Some z /\ (snd z =? 1)%float = true) /\
  (forall i j x y z w, nth_error raw i = Some x -> nth_error raw j = Some y ->
     nth_error norm i = Some z -> nth_error norm j = Some w ->
     (snd x <=? snd y)%float = true -> (snd z <=? snd w)%float = true).

(** the numbers of a record that fall into month [m] and hour [h], in order *)
Fixpoint group_of (m h : Z) (s : list (Z * float)) : list float :=
  match s with
  | nil => nil
  | cons (t, v) r => if Z.eq_dec (month_of t) m then if Z.eq_dec (hour_of t) h then v :: group_of m h r else group_of m h r else group_of m h r
  end.
