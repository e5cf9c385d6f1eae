(** The pandas / numpy operations used by melodist, on plain lists.

    A [series T] is a list of (time stamp, value) rows in index order. These
    definitions model library behaviour (trusted reading of the pandas/numpy
    documentation), not melodist code. *)
From Coq Require Import ZArith List Bool Lia.
From Verif Require Import Py Num Cal.
Import ListNotations.
Open Scope Z_scope.

Definition series (T : Type) : Type := list (Z * T).
Definition index {T} (s : series T) : list Z := map fst s.
Definition values {T} (s : series T) : list T := map snd s.

(** [pd.date_range(start, end, freq)] for a fixed step *)
Definition date_range (start stop step : Z) : list Z :=
  if stop <? start then []
  else map (fun k => start + Z.of_nat k * step)
           (seq 0 (Z.to_nat ((stop - start) / step + 1))).

(** [DatetimeIndex.min()] / [.max()]; [None] for an empty index (NaT) *)
Definition idx_min (l : list Z) : option Z :=
  match l with [] => None | a :: r => Some (fold_left Z.min r a) end.
Definition idx_max (l : list Z) : option Z :=
  match l with [] => None | a :: r => Some (fold_left Z.max r a) end.

(** label lookup *)
Fixpoint lookup {A} (k : Z) (s : list (Z * A)) : option A :=
  match s with
  | [] => None
  | (t, v) :: r => if t =? k then Some v else lookup k r
  end.

Definition mem (k : Z) (l : list Z) : bool := existsb (Z.eqb k) l.
Fixpoint has_dup (l : list Z) : bool :=
  match l with [] => false | a :: r => mem a r || has_dup r end.

(** [pd.Series(index=idx, data=arr)]: lengths must match *)
Definition mk_series {T} (idx : list Z) (data : list T) : res (series T) :=
  if Nat.eqb (length idx) (length data) then Ok (combine idx data) else Err ValueError.

Section Ops.
  Context {T : Type} {N : Num T}.

  (** [Series.reindex(idx)]: raises on duplicate labels, NaN where absent *)
  Definition reindex (s : series T) (idx : list Z) : res (series T) :=
    if has_dup (index s) then Err ValueError
    else Ok (map (fun t => (t, match lookup t s with Some v => v | None => n_nan end)) idx).

  (** last row with label <= t ([method='ffill'] lookup); source in index order *)
  Fixpoint lookup_ffill (t : Z) (s : series T) (acc : T) : T :=
    match s with
    | [] => acc
    | (u, v) :: r => if u <=? t then lookup_ffill t r v else acc
    end.

  (** [Series.reindex(idx, method='ffill')] on a monotonic index *)
  Definition reindex_ffill (s : series T) (idx : list Z) : series T :=
    map (fun t => (t, lookup_ffill t s n_nan)) idx.

  (** [Series.ffill(limit=lim)]: the loop of pandas' pad_inplace.
      [v] is the last valid value (NaN before the first), [c] the current fill count. *)
  Fixpoint ffill_from (lim : nat) (v : T) (c : nat) (l : list T) : list T :=
    match l with
    | [] => []
    | x :: r =>
        if n_isnan x
        then if Nat.leb lim c then x :: ffill_from lim v c r
             else v :: ffill_from lim v (S c) r
        else x :: ffill_from lim x 0 r
    end.
  Definition ffill (lim : nat) (l : list T) : list T := ffill_from lim n_nan 0 l.

  (** values of the rows whose key is [k], in order *)
  Definition group_values (key : Z -> Z) (k : Z) (s : series T) : list T :=
    map snd (filter (fun p => key (fst p) =? k) s).

  (** [s.groupby(key(index)).transform(f)] for a length-preserving [f]: row i of key k gets
      element number (count of earlier rows of key k) of f(group k) *)
  Fixpoint transform_from (key : Z -> Z) (f : list T -> list T) (whole before rest : series T)
    : series T :=
    match rest with
    | [] => []
    | (t, v) :: r =>
        let k := key t in
        (t, nth (length (group_values key k before)) (f (group_values key k whole)) n_nan)
        :: transform_from key f whole (before ++ [(t, v)]) r
    end.
  Definition transform (key : Z -> Z) (f : list T -> list T) (s : series T) : series T :=
    transform_from key f s [] s.

  (** [Series.shift(k)]: positional shift, NaN fill, same index *)
  Definition shift_values (k : Z) (l : list T) : list T :=
    let n := length l in
    let a := Z.to_nat (Z.abs k) in
    if 0 <=? k then firstn n (repeat n_nan a ++ l)
    else skipn a l ++ repeat n_nan (Nat.min a n).
  Definition shift (k : Z) (s : series T) : series T :=
    combine (index s) (shift_values k (values s)).

  (** NaN-skipping sum and mean (pandas defaults: empty/all-NaN sum is 0, mean is NaN).
      Plain left-to-right addition; pandas uses compensated summation for doubles, so the
      [float] instance of these two is not bit-exact (only the [xr] instance is used in theorems). *)
  Definition valid (l : list T) : list T := filter (fun x => negb (n_isnan x)) l.
  Definition nansum (l : list T) : T := fold_left n_add (valid l) n0.
  Definition nanmean (l : list T) : T :=
    match valid l with
    | [] => n_nan
    | v => (nansum l / n_ofZ (Z.of_nat (length v)))%num
    end.
  (** NaN-skipping minimum / maximum *)
  Definition nmin (a b : T) : T := if n_ltb b a then b else a.
  Definition nmax (a b : T) : T := if n_ltb a b then b else a.
  Definition nanmin (l : list T) : T :=
    match valid l with [] => n_nan | a :: r => fold_left nmin r a end.
  Definition nanmax (l : list T) : T :=
    match valid l with [] => n_nan | a :: r => fold_left nmax r a end.

  (** [np.cumsum]: running sums *)
  Fixpoint cumsum_from (acc : T) (l : list T) : list T :=
    match l with
    | [] => []
    | x :: r => let a := n_add acc x in a :: cumsum_from a r
    end.
  Definition cumsum (l : list T) : list T :=
    match l with [] => [] | x :: r => x :: cumsum_from x r end.

  (** [s.resample(bin).agg]: one row per bin from the first to the last row's bin, also for
      bins without rows *)
  Definition resample (bin : Z) (agg : list T -> T) (s : series T) : series T :=
    match idx_min (index s), idx_max (index s) with
    | Some a, Some b =>
        map (fun t => (t, agg (map snd (filter (fun p => (fst p / bin) * bin =? t) s))))
            (date_range (a / bin * bin) (b / bin * bin) bin)
    | _, _ => []
    end.

  (** boolean-mask assignment of one scalar: [s[mask(index)] = v] *)
  Definition mask_set (m : Z -> bool) (v : T) (s : series T) : series T :=
    map (fun p => (fst p, if m (fst p) then v else snd p)) s.

  (** [s.clip(lo, hi)]: NaN stays NaN *)
  Definition clip1 (lo hi x : T) : T :=
    if n_ltb x lo then lo else if n_ltb hi x then hi else x.
End Ops.
