(** Humidity with the observed daily mean restored, and humidity from the dew point, in doubles. *)
From Coq Require Import ZArith List Bool Reals Floats.
From Verif Require Import SpecBase F64.
Import ListNotations.

(** strictly between 0 and 100 *)
Definition partly (x : float) : Prop := ((0 <? x) && (x <? 100))%float = true.
(** limited to 0 and 100 *)
Definition to_percent (r : R) : R := Rmin 100 (Rmax 0 r).
(** a vapour pressure between 2^-400 and 2^400 *)
Definition pressure (p : float) : Prop := ((0x1p-400 <=? p) && (p <=? 0x1p400))%float = true.
(** the exact relative humidity for a vapour pressure [p] and a saturation pressure [s] *)
Definition rel_humidity (p s : float) : R := Rmin 100 (100 * fval p / fval s)%R.
