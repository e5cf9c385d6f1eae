(** Property C123: what an estimation of cascade statistics leaves in the caller's record, also when it fails, and
    estimations over no aggregation level. *)
From Coq Require Import ZArith List Bool Lia Reals Floats.
From Verif Require Import Py Num Cal Series CascadeModel AggModel SpecBuild BuildProofs BuildRecordModel.
Import ListNotations.
Open Scope Z_scope.
Notation float := PrimFloat.float (only parsing).

(** the function modelled in [AggModel] is this one *)
Lemma season_same {T} {N : Num T} pct perc L avg (h : heap T) obs mo :
  build_season pct perc L avg h obs mo = (let (obs', r) := season_record pct perc L avg h obs mo in let* (h', st) := r in Ok (h', obs', st)).
Proof.
  unfold build_season, season_record. destruct (seasonal_subset obs mo) as [vdn|x]; [|reflexivity]. cbn [bind].
  destruct (alloc_casc h casc_init) as [h1 total]. cbv zeta. destruct (levels_loop _ _ _ _ _ _ _ _ _) as [[[[h2 cs] th] ct]|]; [|reflexivity]. cbn [bind].
  destruct (ct =? 0); [reflexivity|]. destruct (new_arr _ _) as [h3 t]. reflexivity.
Qed.
Lemma seasons_same {T} {N : Num T} pct perc L avg : forall ms (h : heap T) obs acc,
  build_seasons pct perc L avg h obs ms acc = (let (obs', r) := seasons_record pct perc L avg h obs ms acc in let* (h', sts) := r in Ok (h', obs', sts)).
Proof.
  induction ms as [|m ms IH]; intros h obs acc; [reflexivity|]. cbn [build_seasons seasons_record]. rewrite season_same.
  destruct (season_record pct perc L avg h obs m) as [obs1 [[h1 st]|x]]; cbn [bind]; [apply IH|reflexivity].
Qed.
Theorem C123_same_function {T} {N : Num T} pct perc hourly level avg months (h : heap T) obs :
  build_casc pct perc hourly level avg months h obs
  = (let (obs', r) := build_casc_record pct perc hourly level avg months h obs in let* (h', sts) := r in Ok (h', obs', sts)).
Proof. apply seasons_same. Qed.
Print Assumptions C123_same_function.

(** the first season selects at least one month *)
Definition first_selects (ms : list (option (list Z))) : bool :=
  match ms with [] => false | Some [] :: _ => false | _ => true end.

Lemma fill_twice {T} {N : Num T} (s : series T) : n_isnan (n0 : T) = false -> zero_filled (zero_filled s) = zero_filled s.
Proof. apply fillna0_idem_num. Qed.
Lemma season_rec {T} {N : Num T} pct perc L avg (h : heap T) obs mo :
  fst (season_record pct perc L avg h obs mo) = (match mo with Some [] => obs | _ => zero_filled obs end).
Proof.
  unfold season_record. destruct mo as [[|m l]|]; cbn [seasonal_subset]; reflexivity.
Qed.
Lemma seasons_filled {T} {N : Num T} pct perc L avg : n_isnan (n0 : T) = false -> forall ms (h : heap T) obs acc,
  fst (seasons_record pct perc L avg h (zero_filled obs) ms acc) = zero_filled obs.
Proof.
  intro Z. induction ms as [|m ms IH]; intros h obs acc; [reflexivity|]. cbn [seasons_record].
  pose proof (season_rec pct perc L avg h (zero_filled obs) m) as R. rewrite fill_twice in R by exact Z.
  assert (R' : fst (season_record pct perc L avg h (zero_filled obs) m) = zero_filled obs) by (rewrite R; destruct m as [[|]|]; reflexivity). clear R.
  destruct (season_record pct perc L avg h (zero_filled obs) m) as [obs1 [[h1 st]|x]]; cbn [fst] in *; subst obs1; [apply IH|reflexivity].
Qed.
(** whether the call succeeds or raises, the missing values of the record are zeros afterwards, unless no season was
    processed or the first one selects no month *)
Theorem C123_record {T} {N : Num T} pct perc hourly level avg months (h : heap T) obs : n_isnan (n0 : T) = false ->
  fst (build_casc_record pct perc hourly level avg months h obs) = (if first_selects (seasons_of months) then zero_filled obs else obs).
Proof.
  intro Z. unfold build_casc_record. change (match months with None => [None] | Some l => l end) with (seasons_of months).
  destruct (seasons_of months) as [|m ms]; [reflexivity|]. cbn [seasons_record].
  pose proof (season_rec pct perc (if hourly then 5%nat else level) avg h obs m) as R.
  destruct (season_record pct perc (if hourly then 5%nat else level) avg h obs m) as [obs1 [[h1 st]|x]] eqn:E; cbn [fst] in R; subst obs1.
  - destruct m as [[|k l]|]; [unfold season_record in E; cbn [seasonal_subset] in E; discriminate E|apply seasons_filled, Z..].
  - cbn [fst first_selects]. destruct m as [[|k l]|]; reflexivity.
Qed.
Print Assumptions C123_record.

(** ** no aggregation level *)
Theorem C123_no_level {T} {N : Num T} pct perc level hourly avg months (h : heap T) obs : n_levels hourly level = O ->
  build_casc pct perc hourly level avg months h obs
  = match seasons_of months with [] => Ok (h, obs, []) | Some [] :: _ => Err UnboundLocalError | _ => Err ZeroDivisionError end.
Proof.
  intro NL. unfold build_casc. change (if hourly then 5%nat else level) with (n_levels hourly level). rewrite NL.
  change (match months with None => [None] | Some l => l end) with (seasons_of months).
  destruct (seasons_of months) as [|m ms]; [reflexivity|]. cbn [build_seasons]. unfold build_season.
  destruct m as [[|k l]|]; cbn [seasonal_subset bind]; [reflexivity|..]; destruct (alloc_casc h casc_init) as [h1 total]; reflexivity.
Qed.
Print Assumptions C123_no_level.

Lemma box_types_error {T} {N : Num T} (v : list T) : forall is x, box_types v is = Err x -> x = IndexError.
Proof.
  induction is as [|i is IH]; intros x E; [discriminate E|]. cbn [box_types] in E. destruct (box_type v i) as [t|y] eqn:B; cbn [bind] in E.
  - destruct (box_types v is) as [ts|y] eqn:Q; cbn [bind] in E; [discriminate E|]. apply IH. congruence.
  - assert (y = x) by congruence. subst y. unfold box_type in B. destruct (rain _); [|discriminate B]. destruct (Nat.eqb i 0).
    + unfold getitem in B. destruct (nth_error v 1) in B; cbn [bind] in B; congruence.
    + destruct (Nat.eqb i _) in B; discriminate B.
Qed.
Lemma agg_error {T} {N : Num T} pct perc (s : series T) x : (forall l, pct l <> Err ZeroDivisionError) ->
  aggregate_precipitation pct perc s = Err x -> x <> ZeroDivisionError.
Proof.
  intros HE E. unfold aggregate_precipitation in E. destruct (pct (filter rain (values (pair_sums s)))) as [m|y] eqn:Q; cbn [bind] in E.
  - destruct (box_types _ _) as [vb|y] eqn:B in E; cbn [bind] in E; [destruct (examine _ _ _ _ _) in E; discriminate E|].
    apply box_types_error in B. congruence.
  - intros ->. apply (HE (filter rain (values (pair_sums s)))). congruence.
Qed.
Lemma loop_zero {T} {N : Num T} pct perc : (forall l, pct l <> Err ZeroDivisionError) -> forall L (h : heap T) total vdn cs th ct x,
  levels_loop pct perc L h total vdn cs th ct = Err x -> x <> ZeroDivisionError.
Proof.
  intro HE. induction L as [|L IH]; intros h total vdn cs th ct x E; [discriminate E|]. cbn [levels_loop] in E.
  destruct (aggregate_precipitation pct perc vdn) as [[c v]|y] eqn:A; cbn [bind] in E; [|apply agg_error in A; [congruence|exact HE]].
  destruct (alloc_casc h c) as [h1 ci]. unfold getitem in E. destruct (nth_error (threshold c) 0); cbn [bind] in E; [|congruence].
  destruct (copy_obj h1 ci) as [h2 cp]. exact (IH _ _ _ _ _ _ _ E).
Qed.
(** a percentile that raises for an empty array, and never by dividing by zero, leaves no other reason *)
Theorem C123_only_no_level {T} {N : Num T} pct perc level hourly avg months (h : heap T) obs :
  (forall m, pct [] <> Ok m) -> (forall l, pct l <> Err ZeroDivisionError) ->
  build_casc pct perc hourly level avg months h obs = Err ZeroDivisionError -> hourly = false /\ level = O /\ first_selects (seasons_of months) = true.
Proof.
  intros HP HE H.
  assert (NL : n_levels hourly level = O).
  { unfold build_casc in H. change (if hourly then 5%nat else level) with (n_levels hourly level) in H. destruct (Nat.eq_dec (n_levels hourly level) 0) as [|NE]; [assumption|exfalso].
    revert H. generalize (match months with None => [None] | Some l => l end) as ms. intro ms. generalize (@nil season_stats) as acc. revert h obs.
    induction ms as [|mo ms IH]; intros h obs acc H; [discriminate H|]. cbn [build_seasons] in H.
    destruct (build_season pct perc (n_levels hourly level) avg h obs mo) as [[[h1 o1] st]|y] eqn:B; cbn [bind] in H; [exact (IH _ _ _ H)|].
    assert (y = ZeroDivisionError) by congruence. subst y. unfold build_season in B. destruct (seasonal_subset obs mo) as [vdn|y] eqn:S; cbn [bind] in B.
    - destruct (alloc_casc h casc_init) as [h2 total].
      destruct (levels_loop _ _ _ _ _ _ _ _ _) as [[[[h3 cs] th] ct]|y] eqn:L in B; cbn [bind] in B.
      + destruct (loop_count _ _ HP _ _ _ _ _ _ _ _ _ _ _ L) as [_ P]. specialize (P NE). destruct (ct =? 0) eqn:Q; [lia|].
        destruct (new_arr _ _) in B. discriminate B.
      + assert (y = ZeroDivisionError) by congruence. subst y. exact (loop_zero _ _ HE _ _ _ _ _ _ _ _ L eq_refl).
    - unfold seasonal_subset in S. destruct mo as [[|k l]|]; cbn in S; try discriminate S. congruence. }
  assert (HL : hourly = false /\ level = O) by (destruct hourly; [discriminate NL|split; [reflexivity|exact NL]]). destruct HL as [-> ->].
  split; [reflexivity|]. split; [reflexivity|]. rewrite (C123_no_level pct perc 0 false avg months h obs eq_refl) in H.
  destruct (seasons_of months) as [|[[|k l]|] ms]; try discriminate H; reflexivity.
Qed.
Print Assumptions C123_only_no_level.

(** ** the hypotheses can be met *)
Example C123_met : n_isnan (n0 : float) = false /\ (forall m, np_percentile 50 ([] : list float) <> Ok m) /\
  (forall l : list float, np_percentile 50 l <> Err ZeroDivisionError) /\
  build_casc_record (np_percentile 50) 50%float false 0 true None {| arrs := []; objs := [] |} [(0, nan)] = ([(0, 0%float)], Err ZeroDivisionError).
Proof.
  split; [reflexivity|]. split; [intro m; discriminate|]. split; [|reflexivity].
  intros l H. unfold np_percentile in H. cbn [Z.ltb Z.compare Pos.compare Pos.compare_cont orb] in H. destruct (sort l); discriminate H.
Qed.
