(** Property C99, and the shipped tables in C14 and C16: the statistics that come with the library. *)
From Coq Require Import ZArith List Bool Lia Reals Lra.
From Verif Require Import Py Num Cal Series UtilModel SpecBase CascadeModel PrecipModel SpecCascade
  TimeProofs CascadeProofs CascadeExact AggModel SpecAgg SpecBuild AggProofs AggExact BuildExact SpecSample PropsCascade PropsAgg.
Import ListNotations.
Open Scope Z_scope.

Ltac each_cell b t := destruct b as [|[|b]]; [| |lia]; (destruct t as [|[|[|[|t]]]]; [| | | |lia]).

(** the model's tables are the printed ones *)
Lemma sample_tables b t : (b < 2)%nat -> (t < 4)%nat ->
  (sample_p01 b t : xr) = Fin (shipped_p01 b t) /\ (sample_p10 b t : xr) = Fin (shipped_p10 b t) /\
  (sample_pxx b t : xr) = Fin (shipped_pxx b t).
Proof.
  intros Hb Ht. each_cell b t; repeat split;
    unfold sample_p01, sample_p10, sample_pxx, shipped_p01, shipped_p10, shipped_pxx, tab2, cell; cbn [nth];
    rewrite lit_xr by lia; f_equal; lra.
Qed.
Lemma sample_weights k b t : (k < 7)%nat -> (b < 2)%nat -> (t < 4)%nat -> (sample_wxx k b t : xr) = Fin (shipped_w k b t).
Proof.
  intros Hk Hb Ht. do 7 (destruct k as [|k]; [each_cell b t; unfold sample_wxx, shipped_w, tab3, tab2, cell; cbn [nth];
    rewrite lit_xr by lia; f_equal; lra|]). lia.
Qed.

(** ** C14, C16: the fallback tables, as printed in the source *)
Theorem C14_shipped_tables q perc s d m c v : map snd s = map to_xr d -> Forall nonneg d ->
  (2 <= length (pairs d))%nat ->
  np_percentile q (filter rain (map to_xr (osums d))) = Ok m -> ~ all_cells_seen m d ->
  aggregate_precipitation (np_percentile q) perc s = Ok (c, v) ->
  forall b t, (b < 2)%nat -> (t < 4)%nat ->
  p01 c b t = Fin (shipped_p01 b t) /\ p10 c b t = Fin (shipped_p10 b t) /\ pxx c b t = Fin (shipped_pxx b t).
Proof.
  intros Es NN HL Em AS E b t Hb Ht. destruct (C14_default_tables q perc s d m c v Es NN HL Em AS E) as (-> & -> & ->).
  apply sample_tables; assumption.
Qed.
Print Assumptions C14_shipped_tables.
Theorem C16_shipped_weights q perc s d : map snd s = map to_xr d -> Forall nonneg d ->
  (2 <= length (pairs d))%nat -> (0 <= q <= 100)%Z ->
  forall xs, filter owet (osums d) = map Some xs -> xs <> [] ->
  exists m c, is_percentile q xs m /\ aggregate_precipitation (np_percentile q) perc s = Ok (c, pair_sums s) /\
    ((exists b t, (b < 2)%nat /\ (t < 4)%nat /\ n_cell (Fin m) d b t = 0%nat) ->
     forall k b t, (k < 7)%nat -> (b < 2)%nat -> (t < 4)%nat -> wxx c k b t = Fin (shipped_w k b t)).
Proof.
  intros Es NN HL Hq xs EW NE. destruct (C16_statistics_or_sample q perc s d Es NN HL Hq xs EW NE) as (m & c & IP & E & _ & _ & _ & SA).
  exists m, c. split; [exact IP|]. split; [exact E|]. intros X k b t Hk Hb Ht. destruct (SA X) as (_ & _ & _ & ->).
  apply sample_weights; assumption.
Qed.
Print Assumptions C16_shipped_weights.

(** a record with a single wet pair: percentile 2, no box above it *)
Definition ex_single : list amt := [Some 1; Some 1; Some 0; Some 0]%R.
Example C14_shipped_met : Forall nonneg ex_single /\ (2 <= length (pairs ex_single))%nat /\
  (exists xs, filter owet (osums ex_single) = map Some xs /\ xs <> []) /\
  np_percentile 50 (filter rain (map to_xr (osums ex_single))) = Ok (Fin 2) /\
  n_cell (Fin 2) ex_single 1 0 = 0%nat /\ ~ all_cells_seen (Fin 2) ex_single.
Proof.
  assert (W : filter owet (osums ex_single) = map Some [1 + 1]%R).
  { unfold osums, ex_single. cbn [pairs map fst snd osum filter owet]. unfold Rltb.
    destruct (Rlt_dec 0 (1 + 1)) as [_|K]; [|lra]. destruct (Rlt_dec 0 (0 + 0)) as [K|_]; [lra|]. reflexivity. }
  assert (F : filter rain (map to_xr (osums ex_single)) = map Fin [1 + 1]%R).
  { unfold osums, ex_single, rain. cbn [pairs map fst snd osum to_xr filter]. rewrite n0_xr, !xltb_Fin. unfold Rltb.
    destruct (Rlt_dec 0 (1 + 1)) as [_|K]; [|lra]. destruct (Rlt_dec 0 (0 + 0)) as [K|_]; [lra|]. reflexivity. }
  assert (C : n_cell (Fin 2) ex_single 1 0 = 0%nat).
  { unfold n_cell, number, in_cell, osums, ex_single. cbn [pairs map fst snd osum length seq filter nth owet to_xr].
    unfold row. rewrite !xltb_Fin. unfold Rltb. destruct (Rlt_dec 2 (1 + 1)) as [K|_]; [lra|].
    destruct (Rlt_dec 0 (0 + 0)) as [K|_]; [lra|]. cbn [Nat.eqb]. rewrite !andb_false_r. cbn [andb length]. reflexivity. }
  split; [repeat constructor; cbn; lra|]. split; [cbn; lia|]. split; [exists [1 + 1]%R; split; [exact W|discriminate]|]. split.
  - rewrite F. destruct (np_percentile_exact 50 [1 + 1]%R ltac:(lia) ltac:(discriminate)) as (m & -> & IP).
    assert (B := C16_threshold_in_range 50 [1 + 1]%R m 2 2 ltac:(lia) ltac:(discriminate) IP).
    do 2 f_equal. assert (2 <= m <= 2)%R; [apply B; repeat constructor; lra|lra].
  - split; [exact C|]. intro S. apply (S 1%nat 0%nat); [lia|lia|exact C].
Qed.

(** ** C99 *)
Theorem C99_sample_data (c : casc xr) : let f := fill_with_sample_data c in
  threshold f = threshold c /\ percentile f = percentile c /\
  forall b t, (b < 2)%nat -> (t < 4)%nat ->
    p01 f b t = Fin (shipped_p01 b t) /\ p10 f b t = Fin (shipped_p10 b t) /\ pxx f b t = Fin (shipped_pxx b t) /\
    forall k, (k < 7)%nat -> wxx f k b t = Fin (shipped_w k b t).
Proof.
  cbv zeta. split; [reflexivity|]. split; [reflexivity|]. intros b t Hb Ht.
  destruct (sample_tables b t Hb Ht) as (A & B & C). split; [exact A|]. split; [exact B|]. split; [exact C|].
  intros k Hk. exact (sample_weights k b t Hk Hb Ht).
Qed.
Print Assumptions C99_sample_data.

Theorem C99_new_object : let c := casc_init (T := xr) in
  threshold c = map Fin initial_thresholds /\ percentile c = Fin 50 /\
  forall k b t, p01 c b t = Fin 0 /\ p10 c b t = Fin 0 /\ pxx c b t = Fin 0 /\ wxx c k b t = Fin 0.
Proof.
  cbv zeta. split; [|split; [reflexivity|intros; repeat split]].
  cbn [casc_init threshold initial_thresholds map]. rewrite !lit_xr by lia. repeat (f_equal; [f_equal; lra|]). reflexivity.
Qed.
Print Assumptions C99_new_object.

(** the printed probabilities and weights are non-negative and add up to 1 within 10^-15 *)
Theorem C99_nearly_distributions b t : (b < 2)%nat -> (t < 4)%nat ->
  (0 < shipped_p01 b t /\ 0 < shipped_p10 b t /\ 0 < shipped_pxx b t /\
   Rabs (shipped_p01 b t + shipped_p10 b t + shipped_pxx b t - 1) <= 1 / 10 ^ 15 /\
   (forall k, (k < 7)%nat -> 0 < shipped_w k b t) /\
   Rabs (weight_sum shipped_w b t - 1) <= 1 / 10 ^ 15)%R.
Proof.
  intros Hb Ht. each_cell b t; unfold weight_sum, shipped_p01, shipped_p10, shipped_pxx, shipped_w, cell; cbn [nth];
  (split; [lra|]; split; [lra|]; split; [lra|]; split; [apply Rabs_le; lra|]; split;
   [intros k Hk; do 7 (destruct k as [|k]; [cbn [nth]; lra|]); lia|apply Rabs_le; lra]).
Qed.
Print Assumptions C99_nearly_distributions.
(** but not exactly (deviation) *)
Theorem C99_distributions_refuted : exists b t, (b < 2)%nat /\ (t < 4)%nat /\
  (shipped_p01 b t + shipped_p10 b t + shipped_pxx b t <> 1 /\ weight_sum shipped_w b t <> 1)%R.
Proof.
  exists 0%nat, 1%nat. split; [lia|]. split; [lia|].
  unfold weight_sum, shipped_p01, shipped_p10, shipped_pxx, shipped_w, cell; cbn [nth]. split; lra.
Qed.
Print Assumptions C99_distributions_refuted.

(** disaggregation with the shipped tables and the initial thresholds, exact arithmetic *)
Theorem C99_works e d0 amounts lvl draws pos : (2 <= length amounts)%nat -> Forall amount_ok amounts ->
  (forall j, exists u, draws j = Fin u /\ (u <= 1 - 1 / 10 ^ 15)%R) ->
  exists out, disagg_prec_cascade e (daily d0 amounts) (COne (fill_with_sample_data casc_init)) true lvl 0 draws pos = Ok (Some out) /\
  forall i r, nth_error amounts i = Some (Fin r) ->
  exists hs, values_on (d0 + Z.of_nat i) out = map Fin hs /\ length hs = 24%nat /\ Forall (fun h => 0 <= h)%R hs /\ Rsum hs = r.
Proof.
  intros L A D. destruct (C08_never_fails_exact e d0 amounts (COne (fill_with_sample_data casc_init)) lvl 0 draws pos L A) as (out & E).
  - split; [cbn; lia|]. intros j b t Hb Ht. destruct (D j) as (u & -> & Hu).
    unfold cumw. cbn [seq map fold_left fill_with_sample_data wxx]. rewrite !sample_weights by (assumption || lia).
    cbn [n_add Num_xr xadd]. rewrite xleb_Fin.
    destruct (C99_nearly_distributions b t Hb Ht) as (_ & _ & _ & _ & _ & W). unfold weight_sum in W.
    unfold Rleb. destruct (Rle_dec _ _) as [_|N]; [reflexivity|]. exfalso. apply N.
    apply Rabs_def2b in W || idtac. revert W Hu. unfold Rabs. destruct (Rcase_abs _); intros; lra.
  - exists out. split; [exact E|]. exact (C01_mass_conservation e d0 amounts _ lvl draws pos out A E).
Qed.
Print Assumptions C99_works.
Example C99_met : (2 <= length ex_amounts)%nat /\ Forall amount_ok ex_amounts /\
  (forall j : nat, exists u, (fun _ => Fin (1/2)) j = Fin u /\ (u <= 1 - 1 / 10 ^ 15)%R).
Proof. split; [cbn; lia|]. split; [exact ex_amounts_ok|]. intros _. exists (1/2)%R. split; [reflexivity|lra]. Qed.

(** ** a new object without sample data cannot split a wet box (deviation) *)
Lemma zero_find u b t : (0 < u)%R -> find_class (casc_init (T := xr)) b t (Fin u) = None.
Proof.
  intro U. assert (Z0 : forall k, wxxcum (casc_init (T := xr)) k b t = Fin 0).
  { induction k as [|k IH]; [reflexivity|]. cbn [wxxcum]. rewrite IH. cbn [casc_init wxx]. rewrite n0_xr.
    cbn [n_add Num_xr xadd]. f_equal. lra. }
  unfold find_class. cbn [seq find]. rewrite !Z0, xleb_Fin. unfold Rleb. destruct (Rle_dec u 0); [lra|reflexivity].
Qed.
Lemma zero_level m draws v : (2 <= length v)%nat -> (forall j : nat, exists u, draws j = Fin u /\ (0 < u)%R) ->
  forall rest i pos, (i + length rest = length v)%nat -> existsb wet rest = true ->
  level_from (casc_init (T := xr)) m draws v i rest (st0 pos) = Err UnboundLocalError.
Proof.
  intros L D. induction rest as [|x rest IH]; intros i pos EL W; [discriminate|].
  cbn [existsb] in W. cbn [level_from]. unfold do_box.
  destruct (n0 <? x)%num eqn:Wx.
  - assert (GI : forall j, (j < length v)%nat -> exists y, getitem v j = Ok y).
    { intros j Hj. unfold getitem. destruct (nth_error v j) as [y|] eqn:E; [exists y; reflexivity|].
      apply nth_error_None in E. lia. }
    cbn [length] in EL.
    assert (BT : exists o, PrecipModel.box_type v i (vbt (st0 (T := xr) pos)) = Ok o).
    { unfold PrecipModel.box_type. destruct (Nat.eqb_spec i 0) as [->|Ni].
      - destruct (GI 1%nat ltac:(lia)) as (y & ->). cbn [bind]. destruct (n0 <? y)%num; eexists; reflexivity.
      - destruct (Nat.eqb_spec i (length v - 1)) as [->|Nl].
        + destruct (GI (length v - 1 - 1)%nat ltac:(lia)) as (y & ->). cbn [bind]. destruct (n0 <? y)%num; eexists; reflexivity.
        + destruct (GI (i - 1)%nat ltac:(lia)) as (y & ->). cbn [bind].
          destruct (GI (S i) ltac:(lia)) as (z & ->). cbn [bind]. eexists; reflexivity. }
    destruct BT as (o & ->). cbn [bind]. destruct o as [t|]; [|reflexivity].
    cbn [st0 rng wgt]. destruct (D pos) as (u & -> & U). destruct (D (S pos)) as (w & -> & U').
    cbn [casc_init p01 p10]. rewrite n0_xr. cbn [n_add Num_xr xadd]. rewrite !xleb_Fin.
    unfold Rleb. destruct (Rle_dec u 0) as [K|_]; [lra|]. destruct (Rle_dec u (0 + 0)) as [K|_]; [lra|].
    rewrite andb_false_r. unfold guess_w1. fold (casc_init (T := xr)). rewrite zero_find by exact U'. reflexivity.
  - cbn [bind]. unfold wet in W. rewrite Wx in W. cbn [orb] in W. rewrite IH; [reflexivity|cbn [length] in EL; lia|exact W].
Qed.
Theorem C99_new_object_fails e d0 amounts lvl shft draws pos : (2 <= length amounts)%nat -> Forall amount_ok amounts ->
  (exists r, In (Fin r) amounts /\ (0 < r)%R) ->
  (forall j : nat, exists u, draws j = Fin u /\ (0 < u)%R) ->
  disagg_prec_cascade e (daily d0 amounts) (COne casc_init) true lvl shft draws pos = Err UnboundLocalError.
Proof.
  intros L A (r & HI & Hr) D. unfold disagg_prec_cascade, disagg_prec_cascade_full.
  assert (LD : length (daily d0 amounts) = length amounts).
  { apply TimeProofs.daily_length. }
  rewrite LD. destruct (Nat.ltb_spec (length amounts) 2) as [K|_]; [lia|]. cbv zeta.
  cbn [check_options bind PrecipModel.n_levels]. rewrite CascadeProofs.zero_missing_values. cbn [levels_from].
  assert (AL : Nat.ltb (allocated true lvl) 1 = false).
  { unfold allocated. destruct (Nat.eqb lvl 10 || Nat.eqb lvl 11); reflexivity. }
  rewrite AL. cbn [level_stats casc_init threshold getitem nth_error bind fst snd]. fold (casc_init (T := xr)).
  unfold level. rewrite zero_level; [reflexivity| | | |].
  - rewrite map_length. exact L.
  - exact D.
  - reflexivity.
  - apply existsb_exists. exists (Fin r). split.
    + apply in_map_iff. exists (Fin r). split; [reflexivity|exact HI].
    + unfold wet. rewrite n0_xr, xltb_Fin. unfold Rltb. destruct (Rlt_dec 0 r); [reflexivity|lra].
Qed.
Print Assumptions C99_new_object_fails.
Example C99_new_object_fails_met : exists amounts, (2 <= length amounts)%nat /\ Forall amount_ok amounts /\
  (exists r, In (Fin r) amounts /\ (0 < r)%R) /\ (forall j : nat, exists u, (fun _ => Fin (1/2)) j = Fin u /\ (0 < u)%R).
Proof.
  exists [Fin 0; Fin 3]. split; [cbn; lia|]. split.
  - constructor; [right; exists 0%R; split; [reflexivity|lra]|]. constructor; [right; exists 3%R; split; [reflexivity|lra]|constructor].
  - split; [exists 3%R; split; [cbn; tauto|lra]|]. intros _. exists (1/2)%R. split; [reflexivity|lra].
Qed.
