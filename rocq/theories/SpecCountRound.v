(** What the cascade statistics of a record of doubles are: correctly rounded relative frequencies of branching
    types and weight classes, counted over pairs of observations. *)
From Coq Require Import ZArith List Bool Reals Floats.
From Verif Require Import Py Num CascadeModel SpecCascade SpecAgg SpecBuild F64 SpecSample.
Import ListNotations.
Notation float := PrimFloat.float (only parsing).

Definition fwet (x : float) : bool := (0 <? x)%float.
Definition fdry (x : float) : bool := (x =? 0)%float.
(** sums of disjoint pairs *)
Definition fsums (d : list float) : list float := map (fun p => (fst p + snd p)%float) (pairs d).

(** column of box j: by the wetness of its neighbours; outside counts as dry, and a box with a missing neighbour
    counts as isolated *)
Definition fcolumn (v : list float) (j : nat) : nat :=
  let l := match j with O => 0%float | S i => nth i v 0%float end in
  let r := nth (S j) v 0%float in
  if PrimFloat.is_nan l || PrimFloat.is_nan r then 3 else column (fwet l) (fwet r).

(** wet box j belongs to cell (b, c): volume class relative to the threshold m, and column *)
Definition fcell (m : float) (d : list float) (b c : nat) (j : nat) : bool :=
  let x := nth j (fsums d) nan in
  fwet x && Nat.eqb (if (m <? x)%float then 1 else 0) b && Nat.eqb (fcolumn (fsums d) j) c.

(** branching of pair j, and the class of the share of its first half *)
Definition fpair (d : list float) (j : nat) : float * float := nth j (pairs d) (nan, nan).
Definition f01 (d : list float) (j : nat) : bool := let (x, y) := fpair d j in fdry x && fwet y.
Definition f10 (d : list float) (j : nat) : bool := let (x, y) := fpair d j in fwet x && fdry y.
Definition fxx (d : list float) (j : nat) : bool := let (x, y) := fpair d j in fwet x && fwet y.
Definition fbound (k : nat) : float :=
  nth k [0; 0.1429; 0.2857; 0.4286; 0.5714; 0.7143; 0.8571; 1]%float 0%float.
Definition fshare (k : nat) (d : list float) (j : nat) : bool :=
  let (x, y) := fpair d j in
  fxx d j && (fbound k <? x / (x + y))%float && (x / (x + y) <=? fbound (S k))%float.

(** number of pairs of cell (b, c) with a property *)
Definition fnumber (P : list float -> nat -> bool) (m : float) (d : list float) (b c : nat) : nat :=
  length (filter (fun j => fcell m d b c j && P d j) (seq 0 (length (pairs d)))).
Definition fany (d : list float) (j : nat) : bool := true.

(** a double that is the correctly rounded value of a real number *)
Definition rounded (x : float) (r : R) : Prop := PrimFloat.is_finite x = true /\ fval x = rnd r.

(** the statistics of a record, every cell having been observed *)
Record counted_tables (m : float) (d : list float) (c : casc float) : Prop := {
  ct_01 : forall b t, (b < 2)%nat -> (t < 4)%nat -> rounded (p01 c b t) (ratio (fnumber f01 m d b t) (fnumber fany m d b t));
  ct_10 : forall b t, (b < 2)%nat -> (t < 4)%nat -> rounded (p10 c b t) (ratio (fnumber f10 m d b t) (fnumber fany m d b t));
  ct_xx : forall b t, (b < 2)%nat -> (t < 4)%nat -> rounded (pxx c b t) (ratio (fnumber fxx m d b t) (fnumber fany m d b t));
  ct_w : forall k b t, (k < 7)%nat -> (b < 2)%nat -> (t < 4)%nat ->
    rounded (wxx c k b t) (if Nat.eqb (fnumber fxx m d b t) 0 then 1 / 7 else ratio (fnumber (fshare k) m d b t) (fnumber fxx m d b t))%R }.

(** the tables shipped with the library *)
Record shipped_tables (c : casc float) : Prop := {
  sh_01 : forall b t, (b < 2)%nat -> (t < 4)%nat -> rounded (p01 c b t) (shipped_p01 b t);
  sh_10 : forall b t, (b < 2)%nat -> (t < 4)%nat -> rounded (p10 c b t) (shipped_p10 b t);
  sh_xx : forall b t, (b < 2)%nat -> (t < 4)%nat -> rounded (pxx c b t) (shipped_pxx b t);
  sh_w : forall k b t, (k < 7)%nat -> (b < 2)%nat -> (t < 4)%nat -> rounded (wxx c k b t) (shipped_w k b t) }.

(** the statistics [c] of one aggregation step applied to the amounts [d] *)
Definition step_statistics (pct : list float -> res float) (perc : float) (d : list float) (c : casc float) : Prop :=
  exists m, pct (filter fwet (fsums d)) = Ok m /\ threshold c = [m] /\ percentile c = perc /\
    ((forall b t, (b < 2)%nat -> (t < 4)%nat -> fnumber fany m d b t <> 0%nat) -> counted_tables m d c) /\
    ((exists b t, (b < 2)%nat /\ (t < 4)%nat /\ fnumber fany m d b t = 0%nat) -> shipped_tables c).
(** amounts entering aggregation step i *)
Definition step_data (i : nat) (d : list float) : list float := Nat.iter i fsums d.
(** averaged statistics: entries within eps of the mean of the steps' entries, weighted with the numbers of sums *)
Definition near_mean (eps : R) (e : casc float -> float) (c : casc float) (cs : list (casc float)) (ns : list nat) : Prop :=
  PrimFloat.is_finite (e c) = true /\ (Rabs (fval (e c) - wmean (map (fun x => fval (e x)) cs) ns) <= eps)%R.
Record averaged_tables (eps : R) (c : casc float) (cs : list (casc float)) (ns : list nat) : Prop := {
  av_01 : forall b t, (b < 2)%nat -> (t < 4)%nat -> near_mean eps (fun x => p01 x b t) c cs ns;
  av_10 : forall b t, (b < 2)%nat -> (t < 4)%nat -> near_mean eps (fun x => p10 x b t) c cs ns;
  av_xx : forall b t, (b < 2)%nat -> (t < 4)%nat -> near_mean eps (fun x => pxx x b t) c cs ns;
  av_w : forall k b t, (k < 7)%nat -> (b < 2)%nat -> (t < 4)%nat -> near_mean eps (fun x => wxx x k b t) c cs ns;
  av_thr : map (fun x => [x]) (threshold c) = map (fun x => threshold x) cs }.
