(** Estimated cascade statistics in binary64: records as doubles, tables that are distributions up to
    rounding. *)
From Coq Require Import ZArith List Bool Reals Floats.
From Verif Require Import SpecBase Num CascadeModel PrecipModel AggModel F64.
Import ListNotations.
Open Scope R_scope.

(** an observation: missing, or zero, or an amount between 2^-300 and 2^300 *)
Definition recorded (x : PrimFloat.float) : Prop :=
  PrimFloat.is_nan x = true \/ (x =? 0)%float = true \/ ((0x1p-300 <=? x)%float && (x <=? 0x1p300)%float)%bool = true.

(** non-negative finite doubles whose exact sum is 1 up to [eps] *)
Definition nearly_distribution (eps : R) (xs : list PrimFloat.float) : Prop :=
  Forall (fun x => PrimFloat.is_finite x = true /\ 0 <= fval x) xs /\ Rabs (Rsum (map fval xs) - 1) <= eps.

(** in each of the eight cells the three branching probabilities and the seven weights *)
Definition nearly_distributions (eps : R) (c : casc PrimFloat.float) : Prop :=
  forall b t, (b < 2)%nat -> (t < 4)%nat ->
    nearly_distribution eps [p01 c b t; p10 c b t; pxx c b t] /\
    nearly_distribution eps [wxx c 0 b t; wxx c 1 b t; wxx c 2 b t; wxx c 3 b t; wxx c 4 b t; wxx c 5 b t; wxx c 6 b t]%nat.

(** no month is listed twice within a season *)
Definition months_once (months : list (option (list Z))) : Prop :=
  Forall (fun mo => match mo with Some ms => NoDup ms | None => True end) months.

(** a random number that is not within 2*10^-14 of 1 *)
Definition ordinary_draw (u : PrimFloat.float) : Prop :=
  PrimFloat.is_finite u = true /\ fval u <= 1 - 2 / 10 ^ 14.

(** the statistics returned for a season, as an argument of the cascade *)
Definition season_argument {T} {N : Num T} (h : heap T) (st : season_stats) : casc_arg T :=
  match st with SOne o => COne (read_casc h o) | SList os => CList (map (read_casc h) os) end.
