(** Vocabulary shared by the property statements. Independent of the models: nothing here
    is used by a *Model.v file. *)
From Coq Require Import ZArith List Bool Reals.
From Verif Require Import Num Cal.
Import ListNotations.
Open Scope Z_scope.

(** equidistant time stamps *)
Definition grid (t0 step : Z) (n : nat) : list Z :=
  map (fun i => t0 + Z.of_nat i * step) (seq 0 n).

(** the midnights of n consecutive days starting with day number d0 *)
Definition daily_index (d0 : Z) (n : nat) : list Z := grid (d0 * us_day) us_day n.

(** all hours / all 5-minute steps of n consecutive days starting with day number d0 *)
Definition hours_index (d0 : Z) (n : nat) : list Z := grid (d0 * us_day) us_hour (24 * n).
Definition fivemin_index (d0 : Z) (n : nat) : list Z :=
  grid (d0 * us_day) (5 * us_minute) (288 * n).

(** a daily series for consecutive days *)
Definition daily {A} (d0 : Z) (amounts : list A) : list (Z * A) :=
  combine (daily_index d0 (length amounts)) amounts.

(** the values a series has on one calendar day, in order *)
Definition values_on {A} (d : Z) (s : list (Z * A)) : list A :=
  map snd (filter (fun p => fst p / us_day =? d) s).

(** sum of reals *)
Definition Rsum (l : list R) : R := fold_right Rplus 0%R l.

(** sublist of k elements starting at position k*i *)
Definition chunk {A} (k i : nat) (l : list A) : list A := firstn k (skipn (k * i) l).

(** the 24 hours of each listed day, day after day *)
Definition days_hours (ds : list Z) : list Z :=
  flat_map (fun d => grid (d * us_day) us_hour 24) ds.
