(** What the cascade statistics are: relative frequencies of branching types and weight classes,
    counted over pairs of observations. [None] is a missing observation. *)
From Coq Require Import ZArith List Bool Reals.
From Verif Require Import Num CascadeModel SpecCascade.
Import ListNotations.
Open Scope R_scope.

Definition amt := option R.
Definition to_xr (a : amt) : xr := match a with Some r => Fin r | None => NaN end.
Definition nonneg (a : amt) : Prop := match a with Some r => 0 <= r | None => True end.

Definition osum (a b : amt) : amt :=
  match a, b with Some x, Some y => Some (x + y) | _, _ => None end.
Definition owet (a : amt) : bool := match a with Some x => Rltb 0 x | None => false end.
Definition odry (a : amt) : bool := match a with Some x => Reqb x 0 | None => false end.

(** disjoint pairs, an odd last element is dropped *)
Fixpoint pairs {A} (l : list A) : list (A * A) :=
  match l with x :: y :: r => (x, y) :: pairs r | _ => [] end.
Definition osums (d : list amt) : list amt := map (fun p => osum (fst p) (snd p)) (pairs d).

(** column of box j: by the wetness of its neighbours, outside counts as dry, and a box with
    a missing neighbour counts as isolated *)
Definition ocolumn (v : list amt) (j : nat) : nat :=
  let l := match j with O => Some 0 | S i => nth i v (Some 0) end in
  let r := nth (S j) v (Some 0) in
  match l, r with
  | Some a, Some b => column (Rltb 0 a) (Rltb 0 b)
  | _, _ => 3
  end.

(** wet box j belongs to cell (b, c): volume class and column *)
Definition in_cell (m : xr) (v : list amt) (b c : nat) (j : nat) : bool :=
  owet (nth j v None) && Nat.eqb (row m (to_xr (nth j v None))) b && Nat.eqb (ocolumn v j) c.

Definition number (P : nat -> bool) (n : nat) : nat := length (filter P (seq 0 n)).

(** branching of pair j *)
Definition pair_at (d : list amt) (j : nat) : amt * amt := nth j (pairs d) (None, None).
Definition branch01 (d : list amt) (j : nat) : bool := let (x, y) := pair_at d j in odry x && owet y.
Definition branch10 (d : list amt) (j : nat) : bool := let (x, y) := pair_at d j in owet x && odry y.
Definition branchxx (d : list amt) (j : nat) : bool := let (x, y) := pair_at d j in owet x && owet y.

(** weight class k: share of the first half in (bound k, bound (k+1)] *)
Definition wbound (k : nat) : R :=
  nth k [0; 0.1429; 0.2857; 0.4286; 0.5714; 0.7143; 0.8571; 1] 0.
Definition share_in (k : nat) (d : list amt) (j : nat) : bool :=
  match pair_at d j with
  | (Some x, Some y) => Rltb (wbound k) (x / (x + y)) && Rleb (x / (x + y)) (wbound (S k))
  | _ => false
  end.

(** cell counts *)
Definition n_cell (m : xr) (d : list amt) (b c : nat) : nat :=
  number (in_cell m (osums d) b c) (length (pairs d)).
Definition n_cell_and (P : list amt -> nat -> bool) (m : xr) (d : list amt) (b c : nat) : nat :=
  number (fun j => in_cell m (osums d) b c j && P d j) (length (pairs d)).

(** the statistics of a data set *)
Definition ratio (a b : nat) : R := INR a / INR b.
Record is_statistics (m : xr) (d : list amt) (c : casc xr) : Prop := {
  is_01 : forall b t, (b < 2)%nat -> (t < 4)%nat ->
    p01 c b t = Fin (ratio (n_cell_and branch01 m d b t) (n_cell m d b t));
  is_10 : forall b t, (b < 2)%nat -> (t < 4)%nat ->
    p10 c b t = Fin (ratio (n_cell_and branch10 m d b t) (n_cell m d b t));
  is_xx : forall b t, (b < 2)%nat -> (t < 4)%nat ->
    pxx c b t = Fin (ratio (n_cell_and branchxx m d b t) (n_cell m d b t));
  is_w : forall k b t, (k < 7)%nat -> (b < 2)%nat -> (t < 4)%nat ->
    wxx c k b t =
      if Nat.eqb (n_cell_and branchxx m d b t) 0 then Fin (1 / 7)
      else Fin (ratio (n_cell_and (fun d j => branchxx d j && share_in k d j) m d b t)
                      (n_cell_and branchxx m d b t))
}.
(** every cell was observed *)
Definition all_cells_seen (m : xr) (d : list amt) : Prop :=
  forall b t, (b < 2)%nat -> (t < 4)%nat -> n_cell m d b t <> 0%nat.
