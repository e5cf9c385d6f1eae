(** The daily course of the dew point for any kind of number, with pi and the sine left open. *)
From Coq Require Import ZArith.
From Verif Require Import Num.
Open Scope Z_scope.

Section Generic.
  Context {T : Type} {N : Num T}.
  Variables (pi : T) (sinf : T -> T).
  (** humidity.py:77-79: the wave of half a degree *)
  Definition wave_any (kr h : Z) : T :=
    (lit 5 1 * sinf ((n_ofZ h + n1) * pi / n_ofZ kr - n_ofZ 3 * pi / n_ofZ 4))%num.
End Generic.
