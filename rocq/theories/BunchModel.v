(** Model of melodist/util/bunch.py: the class Bunch on an explicit heap of Python objects. *)
From Coq Require Import String ZArith List Bool.
From Verif Require Import Py Frame.
Import ListNotations.
Open Scope string_scope.
Open Scope list_scope.

(** Python values: immutable atoms, or references to heap objects *)
Inductive value : Type := VAtom (z : Z) | VRef (a : nat).
Definition items : Type := list (string * value).

(** Heap objects. A Bunch is a dict (its items) that also has an attribute slot [__dict__], a reference to
    the dictionary in which its instance attributes live. *)
Inductive hobj : Type :=
| OList (l : list value)
| ODict (kv : items)
| OBunch (kv : items) (slot : nat).
Definition heap : Type := list hobj.

Definition alloc (h : heap) (o : hobj) : heap * nat := (h ++ [o], length h).
Definition upd (h : heap) (a : nat) (o : hobj) : heap := firstn a h ++ o :: skipn (S a) h.

(** the items of the dictionary at an address *)
Definition dict_items (h : heap) (a : nat) : option items :=
  match nth_error h a with Some (ODict kv) | Some (OBunch kv _) => Some kv | _ => None end.
Definition set_items (h : heap) (a : nat) (kv : items) : heap :=
  match nth_error h a with
  | Some (ODict _) => upd h a (ODict kv)
  | Some (OBunch _ s) => upd h a (OBunch kv s)
  | _ => h
  end.

Fixpoint put (k : string) (v : value) (kv : items) : items :=
  match kv with
  | [] => [(k, v)]
  | (k', v') :: r => if String.eqb k' k then (k', v) :: r else (k', v') :: put k v r
  end.
Fixpoint drop (k : string) (kv : items) : items :=
  match kv with
  | [] => []
  | (k', v') :: r => if String.eqb k' k then r else (k', v') :: drop k r
  end.
Definition put_all (new : items) (kv : items) : items := fold_left (fun acc p => put (fst p) (snd p) acc) new kv.

(** names that the type resolves before the instance attributes (data descriptors of object and Bunch) *)
Definition reserved (k : string) : bool :=
  String.eqb k "__dict__" || String.eqb k "__class__" || String.eqb k "__weakref__".
(** names found on the type when the instance has no such attribute (methods of dict and Bunch). Left out: the
    five that depend on the Python version (__or__, __ror__, __ior__, __class_getitem__, __getstate__). *)
Definition on_type (k : string) : bool :=
  existsb (String.eqb k)
    ["copy"; "update"; "keys"; "values"; "items"; "get"; "pop"; "popitem"; "clear"; "setdefault"; "fromkeys";
     "__init__"; "__copy__"; "__deepcopy__"; "__doc__"; "__module__"; "__getitem__"; "__setitem__";
     "__delitem__"; "__contains__"; "__len__"; "__iter__"; "__eq__"; "__ne__"; "__repr__"; "__str__";
     "__delattr__"; "__dir__"; "__format__"; "__ge__"; "__getattribute__"; "__gt__"; "__hash__"; "__init_subclass__";
     "__le__"; "__lt__"; "__new__"; "__reduce__"; "__reduce_ex__"; "__reversed__"; "__setattr__"; "__sizeof__"; "__subclasshook__"].

(** what [b.k] can evaluate to: a stored value, or something that belongs to the type *)
Inductive attr : Type := AStored (v : value) | AType.

Section Ops.
  Variables (h : heap) (a : nat).

  (** [b[k]] *)
  Definition get_item (k : string) : res value :=
    match dict_items h a with
    | Some kv => match assoc k kv with Some v => Ok v | None => Err KeyError end
    | None => Err TypeError
    end.
  (** [b.k]: data descriptors of the type, then the attribute dictionary, then the type *)
  Definition get_attr (k : string) : res attr :=
    match nth_error h a with
    | Some (OBunch _ s) =>
        if reserved k then Ok AType
        else match dict_items h s with
             | Some kv => match assoc k kv with
                          | Some v => Ok (AStored v)
                          | None => if on_type k then Ok AType else Err AttributeError
                          end
             | None => Err TypeError
             end
    | _ => Err AttributeError
    end.

  (** [b[k] = v] *)
  Definition set_item (k : string) (v : value) : res heap :=
    match dict_items h a with
    | Some kv => Ok (set_items h a (put k v kv))
    | None => Err TypeError
    end.
  (** [b.k = v]; assigning [__dict__] replaces the attribute dictionary *)
  Definition set_attr (k : string) (v : value) : res heap :=
    match nth_error h a with
    | Some (OBunch kv s) =>
        if String.eqb k "__dict__" then
          match v with
          | VRef d => match dict_items h d with Some _ => Ok (upd h a (OBunch kv d)) | None => Err TypeError end
          | VAtom _ => Err TypeError
          end
        else if reserved k then Err TypeError
        else match dict_items h s with
             | Some kv' => Ok (set_items h s (put k v kv'))
             | None => Err TypeError
             end
    | _ => Err AttributeError
    end.
  (** [del b[k]] *)
  Definition del_item (k : string) : res heap :=
    match dict_items h a with
    | Some kv => match assoc k kv with Some _ => Ok (set_items h a (drop k kv)) | None => Err KeyError end
    | None => Err TypeError
    end.
  (** [del b.k] *)
  Definition del_attr (k : string) : res heap :=
    match nth_error h a with
    | Some (OBunch _ s) =>
        if reserved k then Err TypeError
        else match dict_items h s with
             | Some kv => match assoc k kv with Some _ => Ok (set_items h s (drop k kv)) | None => Err AttributeError end
             | None => Err TypeError
             end
    | _ => Err AttributeError
    end.
  (** [b.update(...)] *)
  Definition update (new : items) : res heap :=
    match dict_items h a with
    | Some kv => Ok (set_items h a (put_all new kv))
    | None => Err TypeError
    end.
  (** [l.append(v)] and [l[i] = v] on a list object *)
  Definition append (v : value) : res heap :=
    match nth_error h a with Some (OList l) => Ok (upd h a (OList (l ++ [v]))) | _ => Err AttributeError end.
  Definition set_elem (i : nat) (v : value) : res heap :=
    match nth_error h a with
    | Some (OList l) => if Nat.ltb i (length l) then Ok (upd h a (OList (firstn i l ++ v :: skipn (S i) l))) else Err IndexError
    | _ => Err TypeError
    end.
End Ops.

(** bunch.py:6-8 Bunch called with keyword arguments: the dictionary is filled, then [self.__dict__ = self].
    A keyword named self collides with the parameter of that name: TypeError. *)
Definition bunch_new (h : heap) (kw : items) : res (heap * nat) :=
  if existsb (fun p => String.eqb (fst p) "self") kw then Err TypeError
  else Ok (h ++ [OBunch kw (length h)], length h).

(** bunch.py:10-12, 17-18 [copy.copy(b)], [b.copy()]: the type called with the items as keyword arguments *)
Definition bunch_copy (h : heap) (a : nat) : res (heap * nat) :=
  match nth_error h a with
  | Some (OBunch kv _) => bunch_new h kv
  | _ => Err TypeError
  end.

(** ** [copy.deepcopy]
    [None]: it raises, or the recursion does not end within [fuel] nested calls. [memo]: old address -> address of the copy.
    CPython enters a list or dict into the memo before its elements are copied, this model afterwards: the two
    differ only on lists and dicts that contain themselves. *)
Fixpoint find (a : nat) (memo : list (nat * nat)) : option nat :=
  match memo with [] => None | (x, y) :: r => if Nat.eqb x a then Some y else find a r end.

Section Deep.
  Variable rec : heap -> list (nat * nat) -> value -> option (heap * list (nat * nat) * value).
  Fixpoint deep_list (h : heap) (memo : list (nat * nat)) (l : list value)
    : option (heap * list (nat * nat) * list value) :=
    match l with
    | [] => Some (h, memo, [])
    | v :: r =>
        match rec h memo v with
        | Some (h, memo, v') =>
            match deep_list h memo r with Some (h, memo, r') => Some (h, memo, v' :: r') | None => None end
        | None => None
        end
    end.
  Fixpoint deep_items (h : heap) (memo : list (nat * nat)) (l : items)
    : option (heap * list (nat * nat) * items) :=
    match l with
    | [] => Some (h, memo, [])
    | (k, v) :: r =>
        match rec h memo v with
        | Some (h, memo, v') =>
            match deep_items h memo r with Some (h, memo, r') => Some (h, memo, (k, v') :: r') | None => None end
        | None => None
        end
    end.
End Deep.

Fixpoint deepcopy (fuel : nat) (h : heap) (memo : list (nat * nat)) (v : value)
  : option (heap * list (nat * nat) * value) :=
  match fuel with
  | O => None
  | S n =>
      match v with
      | VAtom z => Some (h, memo, VAtom z)
      | VRef a =>
          match find a memo with
          | Some a' => Some (h, memo, VRef a')
          | None =>
              match nth_error h a with
              | Some (OList l) =>
                  match deep_list (deepcopy n) h memo l with
                  | Some (h, memo, l') => let (h, a') := alloc h (OList l') in Some (h, (a, a') :: memo, VRef a')
                  | None => None
                  end
              | Some (ODict kv) =>
                  match deep_items (deepcopy n) h memo kv with
                  | Some (h, memo, kv') => let (h, a') := alloc h (ODict kv') in Some (h, (a, a') :: memo, VRef a')
                  | None => None
                  end
              | Some (OBunch kv _) =>
                  (* bunch.py:14-15 [__deepcopy__]: Bunch of a deep copy of the plain dict, the memo is not passed *)
                  match deep_items (deepcopy n) h [] kv with
                  | Some (h, _, kv') => match bunch_new h kv' with Ok (h, a') => Some (h, (a, a') :: memo, VRef a') | Err _ => None end
                  | None => None
                  end
              | None => None
              end
          end
      end
  end.
