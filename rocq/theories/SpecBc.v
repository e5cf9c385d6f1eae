(** Radiation from the temperature range in doubles. *)
From Coq Require Import ZArith List Bool Reals Floats.
From Verif Require Import Cal SpecBase SpecUtil F64 SpecSineRound SpecRadAny.
Import ListNotations.
Open Scope Z_scope.

(** the minimum, the next minimum (on the last day its own) and the maximum of day [i] *)
Definition low (tmin : list float) (i : nat) : float := nth i tmin nan.
Definition next_low (tmin : list float) (i : nat) : float := next_or_own nan tmin i.
Definition high (tmax : list float) (i : nat) : float := nth i tmax nan.
Definition spread (tmin tmax : list float) (i : nat) : float := day_range (low tmin i) (next_low tmin i) (high tmax i).
(** day [i] has all temperatures, and they are in order *)
Definition known_day (tmin tmax : list float) (i : nat) : Prop := temperatures (low tmin i) (next_low tmin i) (high tmax i).
Definition missing_day (tmin tmax : list float) (i : nat) : Prop :=
  is_nan (low tmin i) = true \/ is_nan (next_low tmin i) = true \/ is_nan (high tmax i) = true.
(** month [m] of the frame with first day [d0]: every day misses a temperature or has them in order *)
Definition settled_month (tmin tmax : list float) (d0 m : Z) : Prop :=
  forall j, (j < length tmin)%nat -> month_of_day (d0 + Z.of_nat j) = m -> missing_day tmin tmax j \/ known_day tmin tmax j.
