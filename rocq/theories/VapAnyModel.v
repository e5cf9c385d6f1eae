(** Vapour pressure and dew point for any kind of number, with exponential function and logarithm left open. *)
From Coq Require Import ZArith List Bool.
From Verif Require Import Py Num.
Import ListNotations.
Open Scope Z_scope.

Section Generic.
  Context {T : Type} {N : Num T}.
  Variables expf logf : T -> T.

  (** util.py:86 and 118: at or above the freezing point *)
  Definition warm_any (temp : T) : bool := (lit 27315 2 <=? temp)%num.
  (** util.py:90 and 96: the exponent *)
  Definition exponent_any (temp : T) : T :=
    if warm_any temp then ((lit 1762 2 * (temp - lit 27315 2)) / (lit 24312 2 + (temp - lit 27315 2)))%num
    else ((lit 2246 2 * (temp - lit 27315 2)) / (lit 27262 2 + (temp - lit 27315 2)))%num.
  (** util.py:70-102 [vapor_pressure], one element *)
  Definition vapor_any (temp hum : T) : T := (lit 6112 3 * expf (exponent_any temp) * hum / n_ofZ 100)%num.
  Definition vapor_pressure_any (temp hum : list T) : res (list T) :=
    if Nat.eqb (length temp) (length hum)
    then Ok (map (fun p => vapor_any (fst p) (snd p)) (combine temp hum))
    else Err AssertionError.
  (** util.py:82-83: scalar humidity; 100 gives the saturation pressure *)
  Definition saturation_any (temp : T) : T := vapor_any temp (n0 + n_ofZ 100)%num.
  (** util.py:105-134 [dewpoint_temperature], one element *)
  Definition dewpoint_any (temp hum : T) : T :=
    let l := logf (vapor_any temp hum / lit 6112 3)%num in
    ((if warm_any temp then lit 24312 2 * l / (lit 1762 2 - l)
      else lit 27262 2 * l / (lit 2246 2 - l)) + lit 27315 2)%num.
  Definition dewpoint_temperature_any (temp hum : list T) : res (list T) :=
    if Nat.eqb (length temp) (length hum)
    then Ok (map (fun p => dewpoint_any (fst p) (snd p)) (combine temp hum))
    else Err AssertionError.
End Generic.
