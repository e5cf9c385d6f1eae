(** Vocabulary of the humidity and wind properties. *)
From Coq Require Import String ZArith List Bool Reals.
From Verif Require Import Num Cal Series SpecBase SpecUtil.
Import ListNotations.
Open Scope Z_scope.

(** a day is wet if its known amounts add up to more than zero *)
Definition wet_on (precip : series xr) (t : Z) : bool :=
  if Rlt_dec 0 (Rsum (fins (map snd (filter (fun p => date_of (fst p) =? date_of t) precip)))) then true else false.
(** the values observed in hour h of month m on wet (dry) days *)
Definition class_values (precip hum : series xr) (m h : Z) (wet : bool) : list xr :=
  map snd (filter (fun p => (month_of (fst p) =? m) && (hour_of (fst p) =? h) && Bool.eqb (wet_on precip (fst p)) wet) hum).
(** a daily amount that counts as wet: a missing amount does not *)
Definition wet_amount (x : xr) : bool := match x with Fin r => if Rlt_dec 0 r then true else false | PInf => true | _ => false end.
(** the diurnal wave of the dew point *)
Definition dew_wave (kr h : Z) : R := (1 / 2 * sin ((IZR h + 1) * PI / IZR kr - 3 * PI / 4))%R.
(** a number limited to [0,100] *)
Definition limited (r : R) : R := Rmin 100 (Rmax 0 r).
Definition limited_x (x : xr) : xr := match x with Fin r => Fin (limited r) | PInf => Fin 100 | NInf => Fin 0 | NaN => NaN end.
