(** Sub-daily time stamps. *)
From Coq Require Import ZArith List.
From Verif Require Import Cal SpecBase.
Import ListNotations.
Open Scope Z_scope.

(** the stamps of the given days, k per day, step apart, from midnight on *)
Definition days_steps (k : nat) (step : Z) (ds : list Z) : list Z :=
  flat_map (fun d => map (fun i => d * us_day + Z.of_nat i * step) (seq 0 k)) ds.
(** without fractions of a second *)
Definition whole_second (t : Z) : Z := t - t mod us_second.
(** all days from the first to the last *)
Definition all_days (ds : list Z) : list Z :=
  map (fun i => hd 0 ds + Z.of_nat i) (seq 0 (Z.to_nat (last ds 0 - hd 0 ds + 1))).
(** no day is missing between two others *)
Definition no_gap (ds : list Z) : Prop := forall g x y, In x ds -> In y ds -> x < g < y -> In g ds.
