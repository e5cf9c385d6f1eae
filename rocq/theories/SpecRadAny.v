(** The daily radiation models and the random wind in doubles. *)
From Coq Require Import ZArith List Bool Reals Floats.
From Verif Require Import Series SpecBase SpecUtil F64 RadAnyModel.
Import ListNotations.
Open Scope R_scope.

(** between 0 and 1; between 0 and 2^20; between 2^-20 and 2^20 *)
Definition fraction (x : float) : Prop := ((0 <=? x) && (x <=? 1))%float = true.
Definition amount (x : float) : Prop := ((0 <=? x) && (x <=? 0x1p20))%float = true.
Definition duration (x : float) : Prop := ((0x1p-20 <=? x) && (x <=? 0x1p20))%float = true.
(** a number other than 0 that numpy's generator can deliver: k / 2^53 with 0 < k < 2^53 *)
Definition drawn (x : float) : Prop :=
  PrimFloat.is_finite x = true /\ exists k, (0 < k < 2 ^ 53)%Z /\ fval x = IZR k / 2 ^ 53.

(** the two parameters in force in the calendar month [m] *)
Definition in_force (ps : model_params float) (m : Z) (a b : float) : Prop :=
  match ps with
  | AScalar a' b' => a = a' /\ b = b'
  | AMonthly la lb => entry_of m la = Some a /\ entry_of m lb = Some b
  end.

(** the temperature range of Bristow and Campbell: the maximum less the mean of the minima of this day and the next *)
Definition day_range (lo next hi : float) : float := (hi - (lo + next) / 2)%float.
(** temperatures within 500 degrees of zero, neither minimum above the maximum *)
Definition temperatures (lo next hi : float) : Prop :=
  ((-500 <=? lo) && (-500 <=? next) && (hi <=? 500) && (lo <=? hi) && (next <=? hi))%float = true.

(** what is asked of the exponential function: between 0 and 1 at and below 0, 1 at 0, never decreasing *)
Definition exp_like (expf : float -> float) : Prop :=
  (forall x, (x <=? 0)%float = true -> fraction (expf x)) /\
  (forall x, (x =? 0)%float = true -> (expf x =? 1)%float = true) /\
  (forall x y, (x <=? y)%float = true -> (y <=? 0)%float = true -> (expf x <=? expf y)%float = true).
(** of the power function with a positive exponent up to 100 on numbers between 0 and 1024: finite and not negative,
    0 at 0, never decreasing *)
Definition base (x : float) : Prop := ((0 <=? x) && (x <=? 1024))%float = true.
Definition exponent (c : float) : Prop := ((0 <? c) && (c <=? 100))%float = true.
Definition pow_like (powf : float -> float -> float) : Prop :=
  (forall x c, base x -> exponent c -> ((0 <=? powf x c) && (powf x c <? infinity))%float = true) /\
  (forall x c, (x =? 0)%float = true -> exponent c -> (powf x c =? 0)%float = true) /\
  (forall x y c, base x -> base y -> exponent c -> (x <=? y)%float = true -> (powf x c <=? powf y c)%float = true).
(** of the mean: between 0 and 2^100 when there is a value and all values are between 0 and 1024 *)
Definition mean_like (mean : list float -> float) : Prop :=
  forall l, Forall (fun x => is_nan x = true \/ base x) l -> (exists x, In x l /\ is_nan x = false) ->
    ((0 <=? mean l) && (mean l <=? 0x1p100))%float = true.

(** logarithm and power correct to 2^-50; 0x1.3333333333333p-2 is the double 0.3 *)
Definition near (x : float) (r : R) : Prop := PrimFloat.is_finite x = true /\ Rabs (fval x - r) <= / 2 ^ 50 * Rabs r.
Definition accurate_ln (lnf : float -> float) : Prop := forall u, drawn u -> near (lnf u) (ln (fval u)).
Definition accurate_pow (powf : float -> float -> float) : Prop :=
  forall x, base x -> (0x1p-60 <=? x)%float = true -> near (powf x 0x1.3333333333333p-2%float) (Rpower (fval x) (fval 0x1.3333333333333p-2%float)).
(** logarithm and power at the borders *)
Definition at_borders (lnf : float -> float) (powf : float -> float -> float) : Prop :=
  (forall u, (u =? 0)%float = true -> lnf u = neg_infinity) /\ powf infinity 0x1.3333333333333p-2%float = infinity.
