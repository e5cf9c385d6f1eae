(** Per-level statistics of a data set: repeated aggregation. *)
From Coq Require Import ZArith List Reals Permutation Sorted.
From Verif Require Import Py Num Series CascadeModel AggModel.
Import ListNotations.

(** statistics and series length of L successive aggregation levels *)
Inductive levels_of {T} {N : Num T} (pct : list T -> res T) (perc : T)
  : nat -> series T -> list (casc T * nat) -> Prop :=
| lo_nil s : levels_of pct perc 0 s []
| lo_cons L s c s' ls :
    aggregate_precipitation pct perc s = Ok (c, s') -> levels_of pct perc L s' ls ->
    levels_of pct perc (S L) s ((c, length s') :: ls).

(** a heap in which every instance refers to existing arrays *)
Definition refs_ok {T} (h : heap T) (o : obj T) : Prop :=
  let n := length (arrs h) in
  (o01 o < n /\ o10 o < n /\ oxx o < n /\ owxx o < n /\ othr o < n)%nat.
Definition wf {T} {N : Num T} (h : heap T) : Prop :=
  forall n, (n < length (objs h))%nat -> refs_ok h (get_obj h n).
Definition heap0 {T} : heap T := {| arrs := []; objs := [] |}.

(** missing values replaced by 0, and the data season number k is evaluated on *)
Definition zero_filled {T} {N : Num T} (s : series T) : series T :=
  map (fun p => (fst p, if n_isnan (snd p) then n0 else snd p)) s.
Definition season_data {T} {N : Num T} (k : nat) (s : series T) : series T :=
  match k with O => s | S _ => zero_filled s end.
Definition n_levels (hourly : bool) (level : nat) : nat := if hourly then 5%nat else level.
Definition seasons_of (months : option (list (option (list Z)))) : list (option (list Z)) :=
  match months with None => [None] | Some l => l end.

(** q-th percentile by linear interpolation between order statistics *)
Definition is_percentile (q : Z) (xs : list R) (m : R) : Prop :=
  exists ys, Permutation xs ys /\ StronglySorted Rle ys /\
    let p := ((Z.of_nat (length xs) - 1) * q)%Z in
    let i := Z.to_nat (p / 100) in
    let f := (IZR (p mod 100) / 100)%R in
    m = ((1 - f) * nth i ys 0 + f * nth (S i) ys (nth i ys 0))%R.

(** mean of xs weighted with ns *)
Definition wmean (xs : list R) (ns : list nat) : R :=
  (fold_right Rplus 0 (map (fun p => fst p * INR (snd p)) (combine xs ns))
   / fold_right Rplus 0 (map INR ns))%R.
