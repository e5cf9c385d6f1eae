(** Humidity between two bounds that falls with temperature, in doubles. *)
From Coq Require Import ZArith List Bool Reals Floats.
From Verif Require Import SpecBase F64 SpecSineRound.

(** between 0 and 100 *)
Definition percent (x : float) : Prop := ((0 <=? x) && (x <=? 100))%float = true.
(** bounds of a day: temperatures [lo < hi] at most 2^400 in size, humidities [0 <= a <= b <= 100] *)
Definition humid_day (lo hi a b : float) : Prop :=
  modest lo /\ modest hi /\ (lo <? hi)%float = true /\ percent a /\ percent b /\ (a <=? b)%float = true.
(** a temperature from [lo] to at most twice the range above it *)
Definition warm (lo hi T : float) : Prop :=
  PrimFloat.is_finite T = true /\ (lo <=? T)%float = true /\ (fval T - fval lo <= 2 * (fval hi - fval lo))%R.

(** the exact humidity: linear in temperature from [b] at [lo] to [a] at [hi], not below 0 *)
Definition humid_exact (lo hi a b T : float) : R :=
  Rmax 0 (fval b - (fval T - fval lo) / (fval hi - fval lo) * (fval b - fval a))%R.
