(** When a record suffices to calibrate the cascade: what must have been observed. *)
From Coq Require Import ZArith List Bool Reals.
From Verif Require Import Py Num Cal Series SpecAgg SpecStation.
Import ListNotations.

(** 2^k consecutive amounts, counted in blocks from the start, all observed and not all zero *)
Definition wet_block (k : nat) (d : list amt) : Prop :=
  exists j, (forall i, (i < 2 ^ k)%nat -> exists r, nth_error d (2 ^ k * j + i) = Some (Some r)) /\
            exists i r, (i < 2 ^ k)%nat /\ nth_error d (2 ^ k * j + i) = Some (Some r) /\ (0 < r)%R.
(** enough for L levels: two complete blocks of 2^L amounts and one of the blocks is wet *)
Definition enough (L : nat) (d : list amt) : Prop := (2 * 2 ^ L <= length d)%nat /\ wet_block L d.
(** the amounts of season number k: the rows of its months, in order; the first season sees the record as it is,
    the others with the missing values replaced by zero *)
Definition season_amounts (k : nat) (mo : option (list Z)) (rows : list (Z * amt)) : list amt :=
  map (fun p => match k, snd p with S _, None => Some 0%R | _, a => a end)
      (filter (fun p => mem (month_of (fst p)) (season_months mo)) rows).
