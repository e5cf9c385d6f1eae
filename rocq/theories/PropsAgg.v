(** Properties C13-C20, C23, C69: cascade statistics. *)
From Coq Require Import ZArith List Bool Lia Reals Lra Floats Sorted Permutation.
From Verif Require Import Py Num Cal Series SpecBase IndexProofs CascadeModel AggModel
  SpecCascade SpecAgg SpecBuild AggProofs AggExact BuildProofs BuildExact.
Import ListNotations.
Open Scope Z_scope.

(** ** C13 *)
Theorem C13_pairs {T} {N : Num T} pct perc (s : series T) c v :
  aggregate_precipitation pct perc s = Ok (c, v) ->
  length v = (length s / 2)%nat /\
  forall j t1 x t2 y, nth_error s (2 * j) = Some (t1, x) -> nth_error s (2 * j + 1) = Some (t2, y) ->
    nth_error v j = Some (t2, (x + y)%num).
Proof.
  intro H. rewrite (agg_series _ _ _ _ _ H). clear H. split.
  - induction s as [|p|[t1 x] [t2 y] s IH] using pairs_ind; [reflexivity|destruct p; reflexivity|].
    cbn [pair_sums length]. rewrite IH. replace (S (S (length s))) with (length s + 1 * 2)%nat by lia.
    rewrite Nat.div_add by lia. lia.
  - induction s as [|p|[t1 x] [t2 y] s IH] using pairs_ind; intros j u1 a u2 b H1 H2.
    + destruct j; discriminate.
    + assert (B : (2 * j + 1 < length [p])%nat) by (apply nth_error_Some; congruence). cbn [length] in B. lia.
    + destruct j as [|j].
      * cbn in H1, H2. injection H1 as -> ->. injection H2 as -> ->. reflexivity.
      * replace (2 * S j)%nat with (S (S (2 * j))) in H1 by lia. replace (2 * S j + 1)%nat with (S (S (2 * j + 1))) in H2 by lia.
        cbn [nth_error pair_sums] in *. eapply IH; eassumption.
Qed.
Print Assumptions C13_pairs.
Theorem C13_total pct perc s c v xs : aggregate_precipitation pct perc s = Ok (c, v) ->
  map snd s = map Fin xs -> Nat.even (length xs) = true ->
  exists ys, map snd v = map Fin ys /\ Rsum ys = Rsum xs.
Proof. intros H E EV. rewrite (agg_series _ _ _ _ _ H). exact (pair_sums_total s xs E EV). Qed.
Print Assumptions C13_total.

(** ** C14, C15, C16: exact statistics *)
(** the whole behaviour on non-negative data (missing values allowed) with at least two pairs *)
Theorem C16_statistics_or_sample q perc s d : map snd s = map to_xr d -> Forall nonneg d ->
  (2 <= length (pairs d))%nat -> (0 <= q <= 100)%Z ->
  forall xs, filter owet (osums d) = map Some xs -> xs <> [] ->
  exists m c, is_percentile q xs m /\
    aggregate_precipitation (np_percentile q) perc s = Ok (c, pair_sums s) /\
    threshold c = [Fin m] /\ percentile c = perc /\
    (all_cells_seen (Fin m) d -> is_statistics (Fin m) d c) /\
    ((exists b t, (b < 2)%nat /\ (t < 4)%nat /\ n_cell (Fin m) d b t = 0%nat) ->
       p01 c = sample_p01 /\ p10 c = sample_p10 /\ pxx c = sample_pxx /\ wxx c = sample_wxx).
Proof.
  intros Es NN HL Hq xs EW NE. destruct (np_percentile_exact q xs Hq NE) as (m & Em & IP).
  assert (EF : filter rain (map to_xr (osums d)) = map Fin xs).
  { clear - EW. revert xs EW. induction (osums d) as [|a v IH]; intros xs EW.
    - destruct xs; [reflexivity|discriminate].
    - cbn [map filter] in *. destruct a as [a|]; [|apply IH, EW].
      cbn [owet to_xr] in *. unfold rain. rewrite n0_xr, xltb_Fin. destruct (Rltb 0 a); [|apply IH, EW].
      destruct xs as [|x xs]; [discriminate|]. cbn [map] in EW. injection EW as -> EW. cbn [map]. f_equal. apply IH, EW. }
  destruct (agg_exact (np_percentile q) perc s d (Fin m) Es NN HL) as (c & E & R); [rewrite EF; exact Em|].
  exists m, c. split; [exact IP|]. split; [exact E|exact R].
Qed.
Print Assumptions C16_statistics_or_sample.
Theorem C16_threshold_in_range q xs m lo hi : (0 <= q <= 100)%Z -> xs <> [] -> is_percentile q xs m ->
  Forall (fun x => lo <= x <= hi)%R xs -> (lo <= m <= hi)%R.
Proof. exact (percentile_bounds q xs m lo hi). Qed.
Print Assumptions C16_threshold_in_range.

Theorem C14_branching_distribution q perc s d m c v : map snd s = map to_xr d -> Forall nonneg d ->
  (2 <= length (pairs d))%nat ->
  np_percentile q (filter rain (map to_xr (osums d))) = Ok m -> all_cells_seen m d ->
  aggregate_precipitation (np_percentile q) perc s = Ok (c, v) ->
  forall b t, (b < 2)%nat -> (t < 4)%nat ->
  exists x y z, p01 c b t = Fin x /\ p10 c b t = Fin y /\ pxx c b t = Fin z /\
    (0 <= x /\ 0 <= y /\ 0 <= z /\ x + y + z = 1)%R.
Proof.
  intros Es NN HL Em AS E b t Hb Ht.
  destruct (agg_exact (np_percentile q) perc s d m Es NN HL Em) as (c' & E' & _ & _ & IS & _).
  rewrite E' in E. injection E as <- <-. exact (stats_distribution m d c' NN AS (IS AS) b t Hb Ht).
Qed.
Print Assumptions C14_branching_distribution.
Theorem C14_default_tables q perc s d m c v : map snd s = map to_xr d -> Forall nonneg d ->
  (2 <= length (pairs d))%nat ->
  np_percentile q (filter rain (map to_xr (osums d))) = Ok m -> ~ all_cells_seen m d ->
  aggregate_precipitation (np_percentile q) perc s = Ok (c, v) ->
  p01 c = sample_p01 /\ p10 c = sample_p10 /\ pxx c = sample_pxx.
Proof.
  intros Es NN HL Em AS E.
  destruct (agg_exact (np_percentile q) perc s d m Es NN HL Em) as (c' & E' & _ & _ & _ & SA).
  rewrite E' in E. injection E as <- <-.
  assert (X : exists b t, (b < 2)%nat /\ (t < 4)%nat /\ n_cell m d b t = 0%nat).
  { destruct (existsb (fun c => Nat.eqb (n_cell m d (fst c) (snd c)) 0) cells) eqn:EX.
    - apply existsb_exists in EX. destruct EX as ([b t] & HI & H). apply In_cells in HI. apply Nat.eqb_eq in H.
      exists b, t. cbn [fst snd] in H. tauto.
    - exfalso. apply AS. intros b t Hb Ht H0. assert (T : existsb (fun c => Nat.eqb (n_cell m d (fst c) (snd c)) 0) cells = true).
      { apply existsb_exists. exists (b, t). split; [apply cells_In; assumption|]. cbn [fst snd]. rewrite H0. reflexivity. }
      congruence. }
  destruct (SA X) as (A & B & C & _). auto.
Qed.
Print Assumptions C14_default_tables.
Theorem C15_weight_distribution q perc s d m c v : map snd s = map to_xr d -> Forall nonneg d ->
  (2 <= length (pairs d))%nat ->
  np_percentile q (filter rain (map to_xr (osums d))) = Ok m -> all_cells_seen m d ->
  aggregate_precipitation (np_percentile q) perc s = Ok (c, v) ->
  forall b t, (b < 2)%nat -> (t < 4)%nat ->
  exists w, (forall k, (k < 7)%nat -> wxx c k b t = Fin (w k) /\ (0 <= w k)%R) /\ Rsum (map w (seq 0 7)) = 1%R /\
    (n_cell_and branchxx m d b t = 0%nat -> forall k, (k < 7)%nat -> w k = (1 / 7)%R).
Proof.
  intros Es NN HL Em AS E b t Hb Ht.
  destruct (agg_exact (np_percentile q) perc s d m Es NN HL Em) as (c' & E' & _ & _ & IS & _).
  rewrite E' in E. injection E as <- <-. exact (weights_distribution m d c' NN (IS AS) b t Hb Ht).
Qed.
Print Assumptions C15_weight_distribution.

(** a data set that shows all eight cells: a small and a large event of three boxes, and one
    small and one large isolated box *)
Definition ex_data : list amt := map Some
  [0; 1;  1/2; 1/2;  1; 0;   0; 0;  1/4; 3/4;  0; 0;
   1; 2;  3; 0;  0; 3;   0; 0;  2; 1]%R.
Example ex_sums : osums ex_data = map Some [1; 1; 1; 0; 1; 0; 3; 3; 3; 0; 3]%R.
Proof.
  unfold ex_data, osums. cbn [map pairs fst snd osum].
  repeat (apply f_equal2; [apply f_equal; lra|]). reflexivity.
Qed.
Lemma number_pos P n j : (j < n)%nat -> P j = true -> number P n <> 0%nat.
Proof.
  intros Hj HP E. unfold number in E. apply length_zero_iff_nil in E.
  assert (I : In j (filter P (seq 0 n))) by (apply filter_In; split; [apply in_seq; lia|exact HP]). rewrite E in I. destruct I.
Qed.
Ltac ev := repeat (match goal with
  | |- context [Rltb ?a ?b] => destruct (Rltb_spec a b); [|try (exfalso; lra)]; try (exfalso; lra)
  | |- context [Reqb ?a ?b] => destruct (Reqb_spec a b); [|try (exfalso; lra)]; try (exfalso; lra)
  | |- context [Rleb ?a ?b] => destruct (Rleb_spec a b); [|try (exfalso; lra)]; try (exfalso; lra)
  end).
Example C14_met : Forall nonneg ex_data /\ (2 <= length (pairs ex_data))%nat /\ all_cells_seen (Fin 2) ex_data.
Proof.
  split; [|split].
  - unfold ex_data. cbn [map]. repeat (constructor; [cbn; lra|]). constructor.
  - cbn. lia.
  - intros b t Hb Ht. unfold n_cell. rewrite ex_sums.
    apply (number_pos _ _ (match b, t with O, O => 0 | O, 1 => 1 | O, 2 => 2 | O, _ => 4
                           | _, O => 6 | _, 1 => 7 | _, 2 => 8 | _, _ => 10 end)%nat).
    + destruct b as [|[|b]]; [| |lia]; (destruct t as [|[|[|[|t]]]]; [| | | |lia]); cbn; lia.
    + destruct b as [|[|b]]; [| |lia]; (destruct t as [|[|[|[|t]]]]; [| | | |lia]); unfold in_cell, ocolumn, row;
      cbn [nth map owet to_xr]; rewrite xltb_Fin; ev; reflexivity.
Qed.
Example C14_met_percentile : exists xs, filter owet (osums ex_data) = map Some xs /\ is_percentile 50 xs 2.
Proof.
  exists [1; 1; 1; 1; 3; 3; 3; 3]%R. rewrite ex_sums. split.
  - cbn [map filter owet]. ev. reflexivity.
  - exists [1; 1; 1; 1; 3; 3; 3; 3]%R. split; [reflexivity|]. split; [repeat (apply SSorted_cons; [|repeat (apply Forall_cons; [lra|]); apply Forall_nil]); apply SSorted_nil|].
    cbv zeta. change (Z.to_nat ((Z.of_nat (length [1; 1; 1; 1; 3; 3; 3; 3]%R) - 1) * 50 / 100)) with 3%nat.
    change ((Z.of_nat (length [1; 1; 1; 1; 3; 3; 3; 3]%R) - 1) * 50 mod 100) with 50. cbn [nth]. lra.
Qed.

(** ** C17 *)
Theorem C17_check_accepts w b t : (b < 2)%nat -> (t < 4)%nat ->
  (forall k, (k < 7)%nat -> w k b t = Fin (1 / 7)) -> weight_check_fails (T := xr) w = false.
Proof. exact (check_passes w b t). Qed.
Print Assumptions C17_check_accepts.
(** exactly the tables whose sums all vanish are rejected *)
Theorem C17_rejects_only_zero (w : nat -> nat -> nat -> xr) :
  weight_check_fails w = true <->
  forall b t, (b < 2)%nat -> (t < 4)%nat -> fold_left n_add (map (fun k => w k b t) (seq 0 7)) (Fin 0) = Fin 0.
Proof.
  unfold weight_check_fails. cbv zeta.
  set (sums := fun b t => fold_left (fun acc k => (acc + w k b t)%num) (seq 0 7) n0).
  assert (SE : forall b t, fold_left n_add (map (fun k => w k b t) (seq 0 7)) (Fin 0) = sums b t) by reflexivity.
  change (existsb _ cells) with (existsb (fun c => negb (is0 (sums (fst c) (snd c)))) cells).
  assert (Z : forall x : xr, is0 x = true <-> x = Fin 0).
  { intros [r| | |]; unfold is0; rewrite n0_xr; cbn; try (split; congruence).
    destruct (Reqb_spec r 0) as [->|]; split; congruence. }
  destruct (existsb _ cells) eqn:EX.
  - rewrite n1_xr, !lit_xr, !xltb_Fin by lia.
    destruct (Rltb_spec (IZR 1001 / IZR (10 ^ 3)) 1) as [L|L]; [exfalso; cbn in L; lra|].
    destruct (Rltb_spec 1 (IZR 999 / IZR (10 ^ 3))) as [L'|L']; [exfalso; cbn in L'; lra|].
    split; [discriminate|]. intro H. exfalso. apply existsb_exists in EX. destruct EX as ([b t] & HI & HN).
    apply In_cells in HI. cbn [fst snd] in HN. apply negb_true_iff in HN.
    specialize (H b t (proj1 HI) (proj2 HI)). rewrite SE in H. apply Z in H. congruence.
  - rewrite n0_xr, !lit_xr, !xltb_Fin by lia.
    destruct (Rltb_spec 0 (IZR 999 / IZR (10 ^ 3))) as [L'|L']; [|exfalso; apply L'; cbn; lra].
    rewrite orb_true_r. split; [|reflexivity]. intros _ b t Hb Ht. rewrite SE. apply Z.
    destruct (is0 (sums b t)) eqn:I0; [reflexivity|]. exfalso.
    assert (existsb (fun c => negb (is0 (sums (fst c) (snd c)))) cells = true); [|congruence].
    apply existsb_exists. exists (b, t). split; [apply cells_In; assumption|]. cbn [fst snd]. rewrite I0. reflexivity.
Qed.
Print Assumptions C17_rejects_only_zero.
(** e.g. weights summing to 5 in one cell and replaced by 1/7 elsewhere are accepted *)
Example C17_met : weight_check_fails (T := xr) (fun k b t => if Nat.eqb b 0 && Nat.eqb k 0 then Fin 5 else if Nat.eqb b 0 then Fin 0 else Fin (1 / 7)) = false.
Proof. apply (C17_check_accepts _ 1 0); [lia|lia|]. intros k Hk. reflexivity. Qed.

(** ** C19: what build_casc returns, per season *)
Lemma iter_fill {T} {N : Num T} k (s : series T) : n_isnan (n0 : T) = false -> Nat.iter k fillna0 s = season_data k s.
Proof.
  intro Z0. destruct k as [|k]; [reflexivity|]. induction k as [|k IH]; [reflexivity|].
  change (Nat.iter (S (S k)) fillna0 s) with (fillna0 (Nat.iter (S k) fillna0 s)). rewrite IH.
  apply (fillna0_idem_num s Z0).
Qed.
Lemma build_char {T} {N : Num T} q perc hourly level avg months (h : heap T) obs h' obs' sts :
  n_isnan (n0 : T) = false -> wf h ->
  build_casc (np_percentile q) perc hourly level avg months h obs = Ok (h', obs', sts) ->
  obs' = season_data (length (seasons_of months)) obs /\ length sts = length (seasons_of months) /\
  (forall m, (m < length (objs h))%nat -> read_casc h' m = read_casc h m) /\
  forall k mo, nth_error (seasons_of months) k = Some mo ->
    exists sub st, nth_error sts k = Some st /\ seasonal_subset (season_data k obs) mo = Ok sub /\
      season_ok (np_percentile q) perc (n_levels hourly level) avg h' (length (objs h)) sub st.
Proof.
  intros Z0 W E. unfold build_casc in E. fold (n_levels hourly level) (seasons_of months) in E.
  destruct (build_seasons_ok _ _ _ _ _ _ _ _ _ _ _ W E) as (A & _ & _ & B & new & EN & LN & C). cbn [app] in EN. subst new.
  rewrite iter_fill in A by exact Z0. split; [exact A|]. split; [exact LN|]. split; [exact B|].
  intros k mo HK. destruct (C k mo HK) as (sub & st & H1 & H2 & H3). rewrite iter_fill in H2 by exact Z0. eauto.
Qed.

Theorem C19_levels_undisturbed {T} {N : Num T} q perc hourly level months (h : heap T) obs h' obs' sts :
  n_isnan (n0 : T) = false -> wf h ->
  build_casc (np_percentile q) perc hourly level false months h obs = Ok (h', obs', sts) ->
  length sts = length (seasons_of months) /\
  forall k mo, nth_error (seasons_of months) k = Some mo ->
    exists os sub ls, nth_error sts k = Some (SList os) /\
      seasonal_subset (season_data k obs) mo = Ok sub /\
      levels_of (np_percentile q) perc (n_levels hourly level) sub ls /\
      map (read_casc h') os = map fst ls.
Proof.
  intros Z0 W E. destruct (build_char _ _ _ _ _ _ _ _ _ _ _ Z0 W E) as (_ & L & _ & C). split; [exact L|].
  intros k mo HK. destruct (C k mo HK) as (sub & st & H1 & H2 & ls & LV & H3). destruct st as [o|os].
  - destruct H3 as (H3 & _). discriminate.
  - destruct H3 as (_ & _ & H3). exists os, sub, ls. auto.
Qed.
Print Assumptions C19_levels_undisturbed.
(** instances that existed before the call keep their value *)
Theorem C19_other_instances_untouched {T} {N : Num T} q perc hourly level avg months (h : heap T) obs h' obs' sts :
  n_isnan (n0 : T) = false -> wf h ->
  build_casc (np_percentile q) perc hourly level avg months h obs = Ok (h', obs', sts) ->
  forall m, (m < length (objs h))%nat -> read_casc h' m = read_casc h m.
Proof. intros Z0 W E. destruct (build_char _ _ _ _ _ _ _ _ _ _ _ Z0 W E) as (_ & _ & B & _). exact B. Qed.
Print Assumptions C19_other_instances_untouched.
(** build_casc with at least one level fails only if some level of some season cannot be aggregated *)
Theorem C19_succeeds {T} {N : Num T} q perc hourly level avg months (h : heap T) obs :
  n_isnan (n0 : T) = false -> n_levels hourly level <> O ->
  (forall k mo, nth_error (seasons_of months) k = Some mo ->
     exists sub ls, seasonal_subset (season_data k obs) mo = Ok sub /\
       levels_of (np_percentile q) perc (n_levels hourly level) sub ls) ->
  exists h' obs' sts, build_casc (np_percentile q) perc hourly level avg months h obs = Ok (h', obs', sts).
Proof.
  intros Z0 NL H. unfold build_casc. fold (n_levels hourly level) (seasons_of months).
  destruct (build_complete (np_percentile q) perc (n_levels hourly level) avg (seasons_of months) h obs []) as ([[a b] c] & E).
  - intros k mo HK. rewrite iter_fill by exact Z0. destruct (H k mo HK) as (sub & ls & ES & LV). exists sub, ls. split; [exact ES|]. split; [exact LV|].
    assert (HP : forall m, np_percentile q ([] : list T) <> Ok m) by (intro m; unfold np_percentile; destruct ((q <? 0) || (100 <? q))%bool; discriminate).
    destruct (levels_sums _ _ _ _ _ HP LV) as [_ S]. specialize (S NL). lia.
  - exists a, b, c. exact E.
Qed.
Print Assumptions C19_succeeds.
Example C19_met_heap : wf (heap0 (T := float)).
Proof. intros n Hn. cbn in Hn. lia. Qed.

(** ** C18 *)
Theorem C18_weighted_means q perc hourly level months (h : heap xr) obs h' obs' sts :
  wf h ->
  build_casc (np_percentile q) perc hourly level true months h obs = Ok (h', obs', sts) ->
  forall k mo, nth_error (seasons_of months) k = Some mo ->
    exists o sub ls, nth_error sts k = Some (SOne o) /\
      seasonal_subset (season_data k obs) mo = Ok sub /\
      levels_of (np_percentile q) perc (n_levels hourly level) sub ls /\
      let c := read_casc h' o in
      let ns := map snd ls in
      map (fun x => [x]) (threshold c) = map (fun l => threshold (fst l)) ls /\
      (forall b t xs, map (fun l => p01 (fst l) b t) ls = map Fin xs -> p01 c b t = Fin (wmean xs ns)) /\
      (forall b t xs, map (fun l => p10 (fst l) b t) ls = map Fin xs -> p10 c b t = Fin (wmean xs ns)) /\
      (forall b t xs, map (fun l => pxx (fst l) b t) ls = map Fin xs -> pxx c b t = Fin (wmean xs ns)) /\
      (forall k b t xs, map (fun l => wxx (fst l) k b t) ls = map Fin xs -> wxx c k b t = Fin (wmean xs ns)).
Proof.
  intros W E k mo HK.
  assert (HL : n_levels hourly level <> O).
  { apply (seasons_levels (np_percentile q) perc _ true h obs (seasons_of months) [] (h', obs', sts)); [|exact E]. intro Z. rewrite Z in HK. destruct k; discriminate HK. }
  destruct (build_char (T := xr) (N := Num_xr) _ _ _ _ _ _ _ _ _ _ _ eq_refl W E) as (_ & _ & _ & C).
  destruct (C k mo HK) as (sub & st & H1 & H2 & ls & LV & H3). destruct st as [o|os].
  - destruct H3 as (_ & _ & H3). exists o, sub, ls. split; [exact H1|]. split; [exact H2|]. split; [exact LV|].
    cbv zeta. rewrite H3. destruct (levels_positive _ _ _ _ _ LV) as [LL LP].
    split.
    + unfold average. cbv zeta. cbn [threshold]. rewrite map_map. clear - LV.
      induction LV as [|L s c s' ls E LV IH]; [reflexivity|]. cbn [map fst]. rewrite IH.
      destruct (agg_threshold _ _ _ _ _ E) as (t0 & ->). reflexivity.
    + apply average_ok. apply positive_sum.
      * destruct ls; [cbn in LL; lia|discriminate].
      * clear - LP. induction LP; constructor; assumption.
  - destruct H3 as (H3 & _). discriminate.
Qed.
Print Assumptions C18_weighted_means.
Lemma map_const {A B} (c : B) (l : list A) : map (fun _ => c) l = repeat c (length l).
Proof. induction l; cbn; congruence. Qed.
(** a weighted mean of distributions is a distribution *)
Theorem C18_mean_of_distributions xs ys zs ns : length xs = length ns -> length ys = length ns -> length zs = length ns ->
  ns <> [] -> Forall (fun n => (0 < n)%nat) ns ->
  (forall i, (i < length ns)%nat -> 0 <= nth i xs 0 /\ 0 <= nth i ys 0 /\ 0 <= nth i zs 0 /\
     nth i xs 0 + nth i ys 0 + nth i zs 0 = 1)%R ->
  (0 <= wmean xs ns <= 1 /\ 0 <= wmean ys ns <= 1 /\ 0 <= wmean zs ns <= 1 /\
   wmean xs ns + wmean ys ns + wmean zs ns = 1)%R.
Proof.
  intros L1 L2 L3 NE HP H. pose proof (positive_sum ns NE HP) as PS.
  assert (B : forall f : list R, length f = length ns -> (forall i, (i < length ns)%nat -> (0 <= nth i f 0 <= 1)%R) -> (0 <= wmean f ns <= 1)%R).
  { intros f Lf Hf. apply wmean_bounds; [exact Lf|exact PS|]. apply Forall_forall. intros x Hx.
    destruct (In_nth f x 0%R Hx) as (i & Hi & <-). apply Hf. lia. }
  split; [apply B; [exact L1|]; intros i Hi; specialize (H i Hi); lra|].
  split; [apply B; [exact L2|]; intros i Hi; specialize (H i Hi); lra|].
  split; [apply B; [exact L3|]; intros i Hi; specialize (H i Hi); lra|].
  assert (S3 := wmean_sum [xs; ys; zs] ns ltac:(repeat constructor; assumption)).
  unfold Rsum in S3. cbn [map fold_right] in S3.
  rewrite (map_ext_in _ (fun _ => 1%R)) in S3.
  - rewrite map_const in S3. rewrite seq_length in S3. rewrite wmean_const in S3 by exact PS. lra.
  - intros i Hi. apply in_seq in Hi. specialize (H i ltac:(lia)). lra.
Qed.
Print Assumptions C18_mean_of_distributions.
Theorem C18_mean_of_weights (f : nat -> list R) ns : ns <> [] -> Forall (fun n => (0 < n)%nat) ns ->
  (forall k, (k < 7)%nat -> length (f k) = length ns) ->
  (forall i, (i < length ns)%nat -> (forall k, (k < 7)%nat -> 0 <= nth i (f k) 0)%R /\
     Rsum (map (fun k => nth i (f k) 0%R) (seq 0 7)) = 1%R) ->
  Rsum (map (fun k => wmean (f k) ns) (seq 0 7)) = 1%R /\ forall k, (k < 7)%nat -> (0 <= wmean (f k) ns <= 1)%R.
Proof.
  intros NE HP HLen H. pose proof (positive_sum ns NE HP) as PS. split.
  - rewrite <- (map_map f (fun xs => wmean xs ns)). rewrite wmean_sum.
    + rewrite (map_ext_in _ (fun _ => 1%R)).
      * rewrite map_const, seq_length. apply wmean_const, PS.
      * intros i Hi. apply in_seq in Hi. rewrite map_map. apply H. lia.
    + apply Forall_forall. intros xs Hx. apply in_map_iff in Hx. destruct Hx as (k & <- & Hk). apply in_seq in Hk. apply HLen. lia.
  - intros k Hk. apply wmean_bounds; [apply HLen, Hk|exact PS|]. apply Forall_forall. intros x Hx.
    destruct (In_nth (f k) x 0%R Hx) as (i & Hi & <-). rewrite HLen in Hi by exact Hk.
    destruct (H i Hi) as [N1 S1]. split; [apply N1, Hk|].
    assert (NN : forall j, (j < 7)%nat -> (0 <= nth i (f j) 0)%R) by exact N1.
    unfold Rsum in S1. cbn [seq map fold_right] in S1.
    assert (A0 := NN 0%nat ltac:(lia)); assert (A1 := NN 1%nat ltac:(lia)); assert (A2 := NN 2%nat ltac:(lia));
    assert (A3 := NN 3%nat ltac:(lia)); assert (A4 := NN 4%nat ltac:(lia)); assert (A5 := NN 5%nat ltac:(lia));
    assert (A6 := NN 6%nat ltac:(lia)).
    do 7 (destruct k as [|k]; [lra|]). lia.
Qed.
Print Assumptions C18_mean_of_weights.
Example C18_met : (wmean [1/2; 1] [2; 1]%nat + wmean [1/4; 0] [2; 1]%nat + wmean [1/4; 0] [2; 1]%nat = 1)%R /\ (wmean [1/2; 1] [2; 1]%nat = 2/3)%R.
Proof. unfold wmean. cbn [combine map fold_right fst snd INR]. split; field. Qed.

(** ** C20 *)
Theorem C20_fills_callers_data {T} {N : Num T} q perc hourly level avg months (h : heap T) obs h' obs' sts :
  n_isnan (n0 : T) = false -> wf h -> seasons_of months <> [] ->
  build_casc (np_percentile q) perc hourly level avg months h obs = Ok (h', obs', sts) ->
  obs' = zero_filled obs /\
  forall k mo, nth_error (seasons_of months) k = Some mo ->
    exists sub ls st, nth_error sts k = Some st /\
      seasonal_subset (if Nat.eqb k 0 then obs else zero_filled obs) mo = Ok sub /\
      levels_of (np_percentile q) perc (n_levels hourly level) sub ls.
Proof.
  intros Z0 W NE E. destruct (build_char _ _ _ _ _ _ _ _ _ _ _ Z0 W E) as (A & _ & _ & C). split.
  - rewrite A. destruct (seasons_of months); [congruence|reflexivity].
  - intros k mo HK. destruct (C k mo HK) as (sub & st & H1 & H2 & ls & LV & _). exists sub, ls, st.
    split; [exact H1|]. split; [|exact LV]. destruct k; exact H2.
Qed.
Print Assumptions C20_fills_callers_data.

(** five-minute data, two values missing/present in January, four in February *)
Definition ex_obs : series float :=
  combine [0; 300000000; 600000000; 900000000; 2678400000000; 2678700000000; 2679000000000; 2679300000000]
          [1; nan; 2; 2; 3; 3; 3; 3]%float.
Definition thresholds_of (r : res (heap float * series float * list season_stats)) : list (list float) :=
  match r with
  | Ok (h, _, sts) => map (fun st => match st with SOne o => threshold (read_casc h o) | SList _ => [] end) sts
  | Err _ => []
  end.
(** the January threshold is 4 when January comes first but 2.5 when it comes second *)
Theorem C20_depends_on_position :
  exists (obs : series float) jan feb,
    thresholds_of (build_casc (np_percentile 50) 50%float false 1 true (Some [jan; feb]) heap0 obs) = [[4]; [6]]%float /\
    thresholds_of (build_casc (np_percentile 50) 50%float false 1 true (Some [feb; jan]) heap0 obs) = [[6]; [2.5]]%float.
Proof. exists ex_obs, (Some [1]), (Some [2]). split; vm_compute; reflexivity. Qed.
Print Assumptions C20_depends_on_position.
(** calling build_casc twice on the same frame gives two different results *)
Theorem C20_depends_on_history :
  exists (obs : series float) h' obs' sts,
    build_casc (np_percentile 50) 50%float false 1 true (Some [Some [1]]) heap0 obs = Ok (h', obs', sts) /\
    thresholds_of (Ok (h', obs', sts)) = [[4]]%float /\
    thresholds_of (build_casc (np_percentile 50) 50%float false 1 true (Some [Some [1]]) heap0 obs') = [[2.5]]%float.
Proof.
  exists ex_obs.
  assert (S : exists r, build_casc (np_percentile 50) 50%float false 1 true (Some [Some [1]]) heap0 ex_obs = Ok r).
  { eexists. vm_compute. reflexivity. }
  destruct S as ([[h' obs'] sts] & E). exists h', obs', sts. split; [exact E|].
  destruct (C20_fills_callers_data (T := float) (N := Num_f64) 50 50%float false 1%nat true (Some [Some [1]]) heap0 ex_obs h' obs' sts
             eq_refl C19_met_heap ltac:(discriminate) E) as [-> _].
  rewrite <- E. split; vm_compute; reflexivity.
Qed.
Print Assumptions C20_depends_on_history.

(** ** C23 *)
Theorem C23_selects_months {T} (s : series T) ms : ms <> [] -> NoDup ms -> StronglySorted Z.lt (map fst s) ->
  seasonal_subset s (Some ms) = Ok (filter (fun p => mem (month_of (fst p)) ms) s).
Proof. exact (seasonal_exact s ms). Qed.
Print Assumptions C23_selects_months.
Theorem C23_all {T} (s : series T) : StronglySorted Z.lt (map fst s) -> seasonal_subset s None = Ok s.
Proof. exact (seasonal_all s). Qed.
Print Assumptions C23_all.
Theorem C23_groupings_partition {T} (s : series T) gs : StronglySorted Z.lt (map fst s) ->
  Permutation (concat gs) (map Z.of_nat (seq 1 12)) -> Forall (fun g => g <> []) gs ->
  exists parts, Forall2 (fun g p => seasonal_subset s (Some g) = Ok p) gs parts /\ Permutation (concat parts) s.
Proof.
  intros SS PM NE. exists (map (fun g => filter (fun p => mem (month_of (fst p)) g) s) gs). split.
  - assert (ND : NoDup (concat gs)).
    { apply (Permutation_NoDup (Permutation_sym PM)).
      apply FinFun.Injective_map_NoDup; [intros a b; lia|apply seq_NoDup]. }
    clear PM. induction gs as [|g gs IH]; [constructor|]. inversion NE as [|? ? Hg NE']; subst. cbn [concat] in ND.
    cbn [map]. constructor.
    + apply seasonal_exact; [exact Hg| |exact SS]. clear - ND. induction g as [|x g IH]; [constructor|].
      cbn [app] in ND. inversion ND as [|? ? NI ND']; subst. constructor; [|apply IH, ND'].
      intro H. apply NI, in_or_app. left. exact H.
    + apply IH; [exact NE'|]. clear - ND. induction g as [|x g IH]; [exact ND|]. inversion ND; subst. apply IH. assumption.
  - rewrite <- flat_map_concat_map. apply seasonal_partition, PM.
Qed.
Print Assumptions C23_groupings_partition.
Theorem C23_empty_raises {T} (s : series T) : seasonal_subset s (Some []) = Err UnboundLocalError.
Proof. reflexivity. Qed.
Print Assumptions C23_empty_raises.
Example C23_met : StronglySorted Z.lt (map fst ex_obs) /\ NoDup [2] /\
  length (filter (fun p => mem (month_of (fst p)) [2]) ex_obs) = 4%nat.
Proof. split; [repeat constructor|]. split; [repeat constructor; cbn; tauto|]. vm_compute. reflexivity. Qed.

(** ** C69: no rain, or a single pair *)
Theorem C69_no_rain q perc s d : map snd s = map to_xr d -> Forall (fun a => a = Some 0%R \/ a = None) d -> (0 <= q <= 100)%Z ->
  aggregate_precipitation (np_percentile q) perc s = Err IndexError.
Proof.
  intros E F Hq. apply agg_pct_error. rewrite (pair_sums_values s d E).
  assert (G : filter rain (map to_xr (osums d)) = []).
  { clear E. unfold osums. induction d as [|a|a b d IH] using pairs_ind; [reflexivity|reflexivity|].
    inversion F as [|? ? Ha F1]; subst. inversion F1 as [|? ? Hb F2]; subst. cbn [pairs map fst snd filter].
    rewrite IH by exact F2. destruct Ha as [-> | ->], Hb as [-> | ->]; cbn; try reflexivity.
    destruct (Rltb_spec 0 (0 + 0)); [exfalso; lra|reflexivity]. }
  rewrite G. unfold np_percentile.
  replace ((q <? 0) || (100 <? q))%bool with false by (symmetry; apply orb_false_iff; lia). reflexivity.
Qed.
Print Assumptions C69_no_rain.
Theorem C69_single_pair q perc t1 t2 x y : (0 < x + y)%R -> (0 <= q <= 100)%Z ->
  aggregate_precipitation (np_percentile q) perc [(t1, Fin x); (t2, Fin y)] = Err IndexError.
Proof.
  intros H Hq. unfold aggregate_precipitation. cbn [pair_sums values map snd]. rewrite xadd_Fin.
  cbn [filter]. assert (R1 : rain (Fin (x + y)) = true) by (unfold rain; rewrite n0_xr, xltb_Fin; destruct (Rltb_spec 0 (x + y)); [reflexivity|contradiction]).
  rewrite R1. destruct (np_percentile_exact q [(x + y)%R] Hq ltac:(discriminate)) as (m & E & _).
  cbn [map] in E. rewrite E. cbn [bind length seq box_types box_type nth]. unfold box_type. cbn [nth]. rewrite R1. reflexivity.
Qed.
Print Assumptions C69_single_pair.
Example C69_met : (0 < 1 + 0)%R /\ Forall (fun a => a = Some 0%R \/ a = None) [Some 0%R; None; Some 0%R].
Proof. split; [lra|]. repeat (apply Forall_cons; [auto|]). apply Forall_nil. Qed.
