(** Wet days and classes of hours for records of doubles. *)
From Coq Require Import ZArith List Bool Reals Floats.
From Verif Require Import Num Cal SpecBase SpecUtil F64 SpecShift.
Import ListNotations.
Open Scope Z_scope.

(** an amount of precipitation: missing, or between 0 and a million *)
Definition rain_amount (x : float) : Prop :=
  PrimFloat.is_nan x = true \/ (PrimFloat.is_finite x = true /\ (0 <= fval x <= 1000000)%R).
(** a humidity: missing, or between 0 and 100 *)
Definition humidity_value (x : float) : Prop :=
  PrimFloat.is_nan x = true \/ (PrimFloat.is_finite x = true /\ (0 <= fval x <= 100)%R).
(** a sum that is positive exactly when one of the amounts is, as every order of adding them gives *)
Definition good_total (sum : list float -> float) : Prop :=
  forall l, Z.of_nat (length l) <= 2 ^ 53 -> Forall rain_amount l -> (0 <? sum l)%float = existsb (fun x => 0 <? x)%float l.
(** some amount on the day of [t] is positive *)
Definition rain_on (precip : list (Z * float)) (t : Z) : bool :=
  existsb (fun p => (fst p / us_day =? t / us_day) && (0 <? snd p)%float) precip.
(** the humidities observed in hour h of month m on wet (dry) days *)
Definition class_of (precip hum : list (Z * float)) (m h : Z) (wet : bool) : list float :=
  map snd (filter (fun p => (month_of (fst p) =? m) && (hour_of (fst p) =? h) && Bool.eqb (rain_on precip (fst p)) wet) hum).
