(** Vocabulary for the statements about Bunch: client operations, contents as trees, reachability. *)
From Coq Require Import String ZArith List Bool.
From Verif Require Import Py BunchModel.
Import ListNotations.
Open Scope string_scope.
Open Scope list_scope.

(** what a client can do to an object it holds *)
Inductive bop : Type :=
| BSetItem (k : string) (v : value)
| BSetAttr (k : string) (v : value)
| BDelItem (k : string)
| BDelAttr (k : string)
| BUpdate (new : items)
| BAppend (v : value)
| BSetElem (i : nat) (v : value).
Definition step (h : heap) (o : nat * bop) : heap :=
  let r := match snd o with
           | BSetItem k v => set_item h (fst o) k v
           | BSetAttr k v => set_attr h (fst o) k v
           | BDelItem k => del_item h (fst o) k
           | BDelAttr k => del_attr h (fst o) k
           | BUpdate new => update h (fst o) new
           | BAppend v => append h (fst o) v
           | BSetElem i v => set_elem h (fst o) i v
           end in
  match r with Ok h' => h' | Err _ => h end.
Definition run (h : heap) (ops : list (nat * bop)) : heap := fold_left step ops h.
(** the one assignment that takes a Bunch apart *)
Definition keeps_dict (o : nat * bop) : Prop :=
  match snd o with BSetAttr k _ => k <> "__dict__" | _ => True end.

(** what can be observed of a value: its content as a tree ([None]: deeper than [n], or dangling) *)
Inductive tree : Type :=
| TAtom (z : Z) | TList (l : list tree) | TDict (kv : list (string * tree)) | TBunch (kv : list (string * tree)).
Fixpoint opts {A} (l : list (option A)) : option (list A) :=
  match l with
  | [] => Some []
  | Some a :: r => match opts r with Some r => Some (a :: r) | None => None end
  | None :: _ => None
  end.
Definition tagged {A B} (f : A -> option B) (l : list (string * A)) : option (list (string * B)) :=
  opts (map (fun p => match f (snd p) with Some b => Some (fst p, b) | None => None end) l).
Fixpoint content (n : nat) (h : heap) (v : value) : option tree :=
  match n with
  | O => None
  | S n =>
      match v with
      | VAtom z => Some (TAtom z)
      | VRef a =>
          match nth_error h a with
          | Some (OList l) => option_map TList (opts (map (content n h) l))
          | Some (ODict kv) => option_map TDict (tagged (content n h) kv)
          | Some (OBunch kv _) => option_map TBunch (tagged (content n h) kv)
          | None => None
          end
      end
  end.

Definition held (o : hobj) : list value :=
  match o with OList l => l | ODict kv => map snd kv | OBunch kv s => VRef s :: map snd kv end.
(** no dangling references *)
Definition ref_in (h : heap) (v : value) : Prop := match v with VRef a => (a < length h)%nat | VAtom _ => True end.
Definition well_formed (h : heap) : Prop := forall a o, nth_error h a = Some o -> Forall (ref_in h) (held o).

(** addresses that can be reached from a value *)
Inductive reach (h : heap) : value -> nat -> Prop :=
| reach_here a : reach h (VRef a) a
| reach_in a o v b : nth_error h a = Some o -> In v (held o) -> reach h v b -> reach h (VRef a) b.

(** no Bunch in the content has an item called self *)
Fixpoint no_self (t : tree) : Prop :=
  match t with
  | TAtom _ => True
  | TList l => (fix all l := match l with [] => True | t :: r => no_self t /\ all r end) l
  | TDict kv => (fix all kv := match kv with [] => True | (_, t) :: r => no_self t /\ all r end) kv
  | TBunch kv => (fix all kv := match kv with [] => True | (k, t) :: r => k <> "self" /\ no_self t /\ all r end) kv
  end.
