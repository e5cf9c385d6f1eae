(** Python-level scaffolding: exceptions as values and small list helpers.
    Nothing here models melodist code; it is the target language of the models. *)
From Coq Require Import List ZArith Bool Lia.
Import ListNotations.

(** The exception classes that occur in the modelled code. *)
Inductive exn : Type :=
| ValueError | TypeError | IndexError | KeyError | AttributeError
| AssertionError | UnboundLocalError | ZeroDivisionError.

(** A Python call either returns a value or raises. *)
Inductive res (A : Type) : Type :=
| Ok  (a : A)
| Err (e : exn).
Arguments Ok {A} a.
Arguments Err {A} e.

Definition bind {A B} (m : res A) (f : A -> res B) : res B :=
  match m with Ok a => f a | Err e => Err e end.

Notation "'let*' x ':=' m 'in' k" := (bind m (fun x => k))
  (at level 200, x pattern, m at level 100, k at level 200, right associativity).

(** [raise_if b e k]: [assert]/[raise] guards. *)
Definition guard {A} (b : bool) (e : exn) (k : res A) : res A :=
  if b then k else Err e.

(** Python sequence indexing with a (possibly out of range) non-negative index. *)
Definition getitem {A} (l : list A) (i : nat) : res A :=
  match nth_error l i with Some a => Ok a | None => Err IndexError end.

Definition is_ok {A} (m : res A) : bool :=
  match m with Ok _ => true | Err _ => false end.

(** Which of the pandas APIs that were removed over time are still available in
    the installed pandas (the repository does not pin a version). *)
Record env : Type := {
  has_index_to_datetime : bool;   (* Index.to_datetime and pd.datetime *)
  has_series_append     : bool;   (* Series.append *)
  has_iteritems         : bool;   (* Series.iteritems *)
  has_timedelta_delta   : bool;   (* Timedelta.delta *)
  has_del_index_name    : bool    (* del index.name *)
}.

(** pandas >= 2.2, the version line the repository's own tests need ('ME' alias). *)
Definition modern : env :=
  {| has_index_to_datetime := false; has_series_append := false;
     has_iteritems := false; has_timedelta_delta := false;
     has_del_index_name := false |}.

(** the pandas generation the code was written against *)
Definition legacy : env :=
  {| has_index_to_datetime := true; has_series_append := true;
     has_iteritems := true; has_timedelta_delta := true;
     has_del_index_name := true |}.

Lemma bind_Ok {A B} (m : res A) (f : A -> res B) b :
  bind m f = Ok b <-> exists a, m = Ok a /\ f a = Ok b.
Proof.
  destruct m as [a|e]; cbn; split.
  - intro H; exists a; auto.
  - intros (a' & Ha & Hf); inversion Ha; subst; auto.
  - discriminate.
  - intros (a' & Ha & _); discriminate.
Qed.

Lemma guard_Ok {A} b e (k : res A) a :
  guard b e k = Ok a <-> b = true /\ k = Ok a.
Proof. destruct b; cbn; split; intuition discriminate. Qed.
