(** What the microcanonical cascade is supposed to do (Olsson 1998), stated independently of
    the loop: one box, one row of boxes, all levels. *)
From Coq Require Import ZArith List Bool Reals Floats.
From Verif Require Import Num CascadeModel PrecipModel.
Import ListNotations.
Open Scope Z_scope.

Section Generic.
  Context {T : Type} {N : Num T}.

  Definition wet (x : T) : bool := (n0 <? x)%num.
  Definition wet_at (v : list T) (i : nat) : bool :=
    match nth_error v i with Some y => wet y | None => false end.

  (** table column of a wet box: determined by which neighbours are wet
      (outside the series counts as dry) *)
  Definition column (left_wet right_wet : bool) : nat :=
    match left_wet, right_wet with
    | false, true => 0    (* starting *)
    | true, true => 1     (* enclosed *)
    | true, false => 2    (* ending *)
    | false, false => 3   (* isolated *)
    end.
  Definition column_at (v : list T) (i : nat) : nat :=
    column (match i with O => false | S j => wet_at v j end) (wet_at v (S i)).

  (** table row: 1 above the volume threshold, 0 otherwise *)
  Definition row (m x : T) : nat := if (m <? x)%num then 1 else 0.

  (** cumulative weight of classes 0..k *)
  Definition cumw (w : nat -> T) (k : nat) : T := fold_left n_add (map w (seq 1 k)) (w O).

  (** representative weight of class k: upper class bound minus half a class width *)
  Definition center (k : nat) : T :=
    (nth k [lit 1429 4; lit 2857 4; lit 4286 4; lit 5714 4; lit 7143 4; lit 8571 4; n1] n_nan
     - n1 / n_ofZ 14)%num.

  (** class k is the first whose cumulative weight reaches u *)
  Definition picks (w : nat -> T) (u : T) (k : nat) : Prop :=
    (k < 7)%nat /\ (u <=? cumw w k)%num = true /\
    forall j, (j < k)%nat -> (u <=? cumw w j)%num = false.

  (** box i of row v, random numbers from position pos on; result pair and new position *)
  Inductive box_step (c : casc T) (m : T) (draws : nat -> T) (v : list T) (i : nat) (x : T) (pos : nat)
    : T -> T -> nat -> Prop :=
  | step_dry :
      wet x = false -> box_step c m draws v i x pos n0 n0 pos
  | step_01 :
      wet x = true ->
      (draws pos <=? p01 c (row m x) (column_at v i))%num = true ->
      box_step c m draws v i x pos n0 x (pos + 1)
  | step_10 :
      wet x = true ->
      (p01 c (row m x) (column_at v i) <? draws pos)%num = true ->
      (draws pos <=? p01 c (row m x) (column_at v i) + p10 c (row m x) (column_at v i))%num = true ->
      box_step c m draws v i x pos x n0 (pos + 1)
  | step_xx k :
      wet x = true ->
      (draws pos <=? p01 c (row m x) (column_at v i))%num = false ->
      (draws pos <=? p01 c (row m x) (column_at v i) + p10 c (row m x) (column_at v i))%num = false
      \/ (p01 c (row m x) (column_at v i) <? draws pos)%num = false ->
      picks (fun k => wxx c k (row m x) (column_at v i)) (draws (pos + 1)%nat) k ->
      box_step c m draws v i x pos (center k * x)%num ((n1 - center k) * x)%num (pos + 2).

  (** all boxes of a row from position i on, random numbers consumed in order *)
  Inductive row_steps (c : casc T) (m : T) (draws : nat -> T) (v : list T)
    : nat -> nat -> list T -> list T -> nat -> Prop :=
  | rs_nil i pos : row_steps c m draws v i pos [] [] pos
  | rs_cons i pos x a b pos1 rest out pos2 :
      box_step c m draws v i x pos a b pos1 ->
      row_steps c m draws v (S i) pos1 rest out pos2 ->
      row_steps c m draws v i pos (x :: rest) (a :: b :: out) pos2.

  (** k levels; the level with k-1 finer levels below it uses statistics number k-1 *)
  Inductive cascade_steps (stats : nat -> casc T * T -> Prop) (draws : nat -> T)
    : nat -> nat -> list T -> list (list T) -> Prop :=
  | cs_nil pos v : cascade_steps stats draws 0 pos v []
  | cs_cons k pos v c m out pos' arrays :
      stats k (c, m) ->
      row_steps c m draws v 0 pos v out pos' ->
      cascade_steps stats draws k pos' out arrays ->
      cascade_steps stats draws (S k) pos v (out :: arrays).

  (** every draw is reached by the cumulative weights of every cell *)
  Definition weights_reach (c : casc T) (draws : nat -> T) : Prop :=
    forall j b t, (b < 2)%nat -> (t < 4)%nat ->
      (draws j <=? cumw (fun k => wxx c k b t) 6)%num = true.

  (** statistics of a level, as documented: element k of the list with its own first threshold;
      or the single object with threshold number k *)
  Definition stats_of (arg : casc_arg T) (k : nat) (cm : casc T * T) : Prop :=
    match arg with
    | COne c => nth_error (threshold c) k = Some (snd cm) /\ fst cm = c
    | CList l => nth_error l k = Some (fst cm) /\ nth_error (threshold (fst cm)) 0 = Some (snd cm)
    | COther => False
    end.

  (** every level has a threshold and weights that reach all draws *)
  Definition stats_fine (arg : casc_arg T) (draws : nat -> T) (L : nat) : Prop :=
    match arg with
    | COne c => (L <= length (threshold c))%nat /\ weights_reach c draws
    | CList l => length l = L /\ Forall (fun c => threshold c <> [] /\ weights_reach c draws) l
    | COther => False
    end.

  (** a missing amount counts as dry *)
  Definition fill0 (a : T) : T := if n_isnan a then n0 else a.
End Generic.

(** daily amounts over the reals: missing or non-negative *)
Definition amount_ok (a : xr) : Prop := a = NaN \/ exists r, a = Fin r /\ (0 <= r)%R.
(** daily amounts as doubles: missing, or any finite non-negative number *)
Definition famount (a : float) : Prop :=
  PrimFloat.is_nan a = true \/ (PrimFloat.is_finite a && (0 <=? a))%float = true.
(** daily amounts as doubles: missing, or between 0 and 2^900 *)
Definition famount_ok (a : float) : Prop :=
  PrimFloat.is_nan a = true \/ ((0 <=? a) && (a <=? 0x1p900))%float = true.

(** share of a 45-minute box that belongs to one of its three quarter-hours *)
Definition quarter (boxes : list R) (q : nat) : R := (nth (q / 3) boxes 0 / 3)%R.
(** hour m consists of quarter-hours 4m .. 4m+3 *)
Definition hour_of_boxes (boxes : list R) (m : nat) : R :=
  (quarter boxes (4 * m) + quarter boxes (4 * m + 1) + quarter boxes (4 * m + 2) + quarter boxes (4 * m + 3))%R.
