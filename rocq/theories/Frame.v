(** DataFrames: an index and named columns. Library vocabulary, no melodist code. *)
From Coq Require Import String ZArith List Bool.
From Verif Require Import Py Num Series.
Import ListNotations.
Open Scope Z_scope.
Open Scope list_scope.

Record dframe (T : Type) : Type := { f_index : list Z; f_cols : list (string * list T) }.
Arguments f_index {T} d.
Arguments f_cols {T} d.
Arguments Build_dframe {T} f_index f_cols.

Fixpoint assoc {A} (name : string) (l : list (string * A)) : option A :=
  match l with
  | [] => None
  | (n, v) :: r => if String.eqb n name then Some v else assoc name r
  end.

(** [df.name]: AttributeError when there is no such column *)
Definition fcol {T} (name : string) (d : dframe T) : res (series T) :=
  match assoc name (f_cols d) with
  | Some v => Ok (combine (f_index d) v)
  | None => Err AttributeError
  end.

Fixpoint mapM {A B} (f : A -> res B) (l : list A) : res (list B) :=
  match l with
  | [] => Ok []
  | a :: r => let* b := f a in let* bs := mapM f r in Ok (b :: bs)
  end.

(** the last row whose label is <= t, rows in increasing order *)
Fixpoint last_le {A} (t : Z) (rows : list (Z * A)) (acc : option A) : option A :=
  match rows with
  | [] => acc
  | (u, v) :: r => if u <=? t then last_le t r (Some v) else acc
  end.
Fixpoint is_increasing (l : list Z) : bool :=
  match l with
  | a :: (b :: _) as r => (a <=? b) && is_increasing r
  | _ => true
  end.
