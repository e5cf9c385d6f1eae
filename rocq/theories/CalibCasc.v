(** Calibration of the cascade from a record: success, failure and the weights obtained. *)
From Coq Require Import ZArith List Bool Reals Sorted Lia Lra.
From Verif Require Import Py Num Cal Series SpecBase IndexProofs CascadeModel AggModel SpecCascade CascadeMore SpecAgg SpecBuild AggProofs AggExact
  BuildProofs BuildExact PropsAgg SpecCalib.
Import ListNotations.
Open Scope R_scope.

(** ** blocks *)
Lemma osums_nth_error d j x : nth_error (osums d) j = Some x <->
  exists a b, nth_error d (2 * j) = Some a /\ nth_error d (2 * j + 1) = Some b /\ x = osum a b.
Proof.
  revert j. induction d as [|a|a b d IH] using pairs_ind; intro j.
  - split; [destruct j; discriminate|intros (a & b & H & _); destruct j; discriminate H].
  - split; [destruct j; discriminate|]. intros (u & v & _ & H & _). assert (B : (2 * j + 1 < length [a])%nat) by (apply nth_error_Some; congruence). cbn [length] in B. lia.
  - unfold osums in *. cbn [pairs map fst snd]. destruct j as [|j].
    + cbn. split; [intro H; exists a, b; repeat split; congruence|intros (u & v & H1 & H2 & ->); congruence].
    + cbn [nth_error]. rewrite IH. replace (2 * S j)%nat with (S (S (2 * j))) by lia. replace (S (S (2 * j)) + 1)%nat with (S (S (2 * j + 1))) by lia. reflexivity.
Qed.
Lemma pow_S k : (2 ^ S k = 2 * 2 ^ k)%nat.
Proof. reflexivity. Qed.
Lemma block_sums k d : Forall nonneg d -> (wet_block (S k) d <-> wet_block k (osums d)).
Proof.
  intro NN. rewrite Forall_forall in NN.
  assert (N1 : forall i r, nth_error d i = Some (Some r) -> 0 <= r) by (intros i r H; exact (NN _ (nth_error_In _ _ H))).
  unfold wet_block. rewrite pow_S. set (p := (2 ^ k)%nat). split; intros (j & A & i & r & Hi & E & P); exists j; split.
  - intros i' Hi'. destruct (A (2 * i')%nat ltac:(lia)) as (x & Ex). destruct (A (2 * i' + 1)%nat ltac:(lia)) as (y & Ey).
    exists (x + y). apply osums_nth_error. exists (Some x), (Some y). replace (2 * (p * j + i'))%nat with (2 * p * j + 2 * i')%nat by lia.
    split; [exact Ex|]. split; [|reflexivity]. refine (eq_trans (f_equal (nth_error d) _) Ey); lia.
  - pose proof (Nat.div_mod i 2 ltac:(lia)) as DM. assert (M2 : (i mod 2 < 2)%nat) by (apply Nat.mod_upper_bound; lia). set (h := (i / 2)%nat) in *.
    destruct (A (2 * h)%nat ltac:(lia)) as (x & Ex). destruct (A (2 * h + 1)%nat ltac:(lia)) as (y & Ey).
    exists h, (x + y). split; [lia|]. split.
    + apply osums_nth_error. exists (Some x), (Some y). replace (2 * (p * j + h))%nat with (2 * p * j + 2 * h)%nat by lia. split; [exact Ex|]. split; [|reflexivity]. refine (eq_trans (f_equal (nth_error d) _) Ey); lia.
    + pose proof (N1 _ _ Ex). pose proof (N1 _ _ Ey). destruct (i mod 2)%nat as [|[|m]] eqn:EM; [| |lia].
      * replace i with (2 * h)%nat in E by lia. assert (x = r) by congruence. lra.
      * replace i with (2 * h + 1)%nat in E by lia. assert (y = r) by congruence. lra.
  - intros i' Hi'. pose proof (Nat.div_mod i' 2 ltac:(lia)) as DM. assert (M2 : (i' mod 2 < 2)%nat) by (apply Nat.mod_upper_bound; lia). set (h := (i' / 2)%nat) in *.
    destruct (A h ltac:(lia)) as (x & Ex). apply osums_nth_error in Ex as (a & b & Ea & Eb & EX). destruct a as [a|]; [|discriminate EX]. destruct b as [b|]; [|discriminate EX].
    replace (2 * (p * j + h))%nat with (2 * p * j + 2 * h)%nat in Ea, Eb by lia.
    destruct (i' mod 2)%nat as [|[|m]] eqn:EM; [exists a; refine (eq_trans (f_equal (nth_error d) _) Ea); lia|exists b; refine (eq_trans (f_equal (nth_error d) _) Eb); lia|lia].
  - apply osums_nth_error in E as (a & b & Ea & Eb & EX). destruct a as [a|]; [|discriminate EX]. destruct b as [b|]; [|discriminate EX].
    cbn [osum] in EX. assert (ER : r = a + b) by congruence. clear EX. replace (2 * (p * j + i))%nat with (2 * p * j + 2 * i)%nat in Ea, Eb by lia.
    destruct (Rlt_dec 0 a) as [La|La]; [exists (2 * i)%nat, a; repeat split; [lia|exact Ea|exact La]|].
    exists (2 * i + 1)%nat, b. split; [lia|]. split; [refine (eq_trans (f_equal (nth_error d) _) Eb); lia|]. pose proof (N1 _ _ Ea). lra.
Qed.
Lemma block_smaller k d : wet_block (S k) d -> wet_block k d.
Proof.
  unfold wet_block. rewrite pow_S. set (p := (2 ^ k)%nat). intros (j & A & i & r & Hi & E & P).
  destruct (Nat.lt_ge_cases i p) as [L|L].
  - exists (2 * j)%nat. replace (p * (2 * j))%nat with (2 * p * j)%nat by lia. split; [intros i' Hi'; apply A; lia|]. exists i, r. auto.
  - exists (2 * j + 1)%nat. split.
    + intros i' Hi'. destruct (A (p + i')%nat ltac:(lia)) as (x & Ex). exists x. refine (eq_trans (f_equal (nth_error d) _) Ex); lia.
    + exists (i - p)%nat, r. split; [lia|]. split; [|exact P]. refine (eq_trans (f_equal (nth_error d) _) E); lia.
Qed.
Lemma block_le k L d : (k <= L)%nat -> wet_block L d -> wet_block k d.
Proof. induction 1 as [|L HL IH]; [auto|]. intro H. apply IH, block_smaller, H. Qed.
Lemma block_wet d : wet_block 0 d <-> exists r, In (Some r) d /\ 0 < r.
Proof.
  unfold wet_block. cbn [Nat.pow]. split.
  - intros (j & _ & i & r & _ & E & P). exists r. split; [exact (nth_error_In _ _ E)|exact P].
  - intros (r & HI & P). apply In_nth_error in HI as (j & E). exists j. replace (1 * j + 0)%nat with j in * by lia. split.
    + intros i Hi. exists r. refine (eq_trans (f_equal (nth_error d) _) E); lia.
    + exists O, r. split; [lia|]. split; [refine (eq_trans (f_equal (nth_error d) _) E); lia|exact P].
Qed.
Lemma osums_half d : length (osums d) = (length d / 2)%nat.
Proof. rewrite osums_length. apply pairs_length. Qed.
Lemma enough_sums L d : Forall nonneg d -> (enough (S L) d <-> enough L (osums d)).
Proof.
  intro NN. unfold enough. rewrite block_sums by exact NN. rewrite osums_half, pow_S. set (p := (2 ^ L)%nat).
  pose proof (Nat.div_mod (length d) 2 ltac:(lia)). pose proof (Nat.mod_upper_bound (length d) 2 ltac:(lia)).
  split; intros [A B]; (split; [lia|exact B]).
Qed.
Lemma enough_le k L d : (k <= L)%nat -> enough L d -> enough k d.
Proof.
  intros H [A B]. split; [|exact (block_le k L d H B)]. assert (2 ^ k <= 2 ^ L)%nat by (apply Nat.pow_le_mono_r; lia). lia.
Qed.

(** ** one level *)
(** the weights of every cell are numbers and sum up to 1 but for the rounding of the default tables *)
Definition weights_fine (c : casc xr) : Prop :=
  forall b t, (b < 2)%nat -> (t < 4)%nat ->
  exists w, (forall k, (k < 7)%nat -> wxx c k b t = Fin (w k)) /\ 1 - 1 / 10 ^ 15 <= Rsum (map w (seq 0 7)) <= 1 + 1 / 10 ^ 15.
Definition sampleR (k b t : nat) : R := match sample_wxx (T := xr) k b t with Fin r => r | _ => 0 end.
Lemma sample_sum b t : (b < 2)%nat -> (t < 4)%nat -> 1 - 1 / 10 ^ 15 <= Rsum (map (fun k => sampleR k b t) (seq 0 7)) <= 1 + 1 / 10 ^ 15.
Proof.
  intros Hb Ht. replace (1 / 10 ^ 15) with (1 / 1000000000000000) by (f_equal; cbn; lra). destruct b as [|[|b]]; [| |lia]; (destruct t as [|[|[|[|t]]]]; [| | | |lia]); unfold sampleR, sample_wxx, tab3, tab2;
  cbn [seq map nth]; rewrite !lit_xr by lia; unfold Rsum; cbn [fold_right];
  change (10 ^ 15)%Z with 1000000000000000%Z; change (10 ^ 16)%Z with 10000000000000000%Z; change (10 ^ 17)%Z with 100000000000000000%Z; lra.
Qed.
Lemma stats_weights m d c : Forall nonneg d -> is_statistics m d c -> weights_fine c.
Proof.
  intros NN IS b t Hb Ht. destruct (weights_distribution m d c NN IS b t Hb Ht) as (w & W & S & _). exists w. split; [intros k Hk; apply W, Hk|].
  rewrite S. assert (0 < 1 / 10 ^ 15) by (apply Rdiv_lt_0_compat; [lra|apply pow_lt; lra]). lra.
Qed.
Lemma sample_weights c : wxx c = sample_wxx -> weights_fine c.
Proof.
  intros E b t Hb Ht. exists (fun k => sampleR k b t). split; [|apply sample_sum; assumption].
  intros k Hk. rewrite E. destruct (sample_wxx_fin k b t Hk Hb Ht) as (r & Er). unfold sampleR. rewrite Er. reflexivity.
Qed.
Lemma seen_or_not m d : all_cells_seen m d \/ exists b t, (b < 2)%nat /\ (t < 4)%nat /\ n_cell m d b t = 0%nat.
Proof.
  destruct (existsb (fun c => Nat.eqb (n_cell m d (fst c) (snd c)) 0) cells) eqn:EX.
  - right. apply existsb_exists in EX as ([b t] & HI & H). apply In_cells in HI. apply Nat.eqb_eq in H. exists b, t. cbn [fst snd] in H. tauto.
  - left. intros b t Hb Ht H0. assert (X : existsb (fun c => Nat.eqb (n_cell m d (fst c) (snd c)) 0) cells = true); [|congruence].
    apply existsb_exists. exists (b, t). split; [apply cells_In; assumption|]. cbn [fst snd]. rewrite H0. reflexivity.
Qed.
Lemma wet_sums d : Forall nonneg d -> exists xs, filter rain (map to_xr (osums d)) = map Fin xs /\ (xs <> [] <-> wet_block 1 d).
Proof.
  intro NN. assert (G : exists xs, filter rain (map to_xr (osums d)) = map Fin xs /\ (xs <> [] <-> exists r, In (Some r) (osums d) /\ 0 < r)).
  2: { destruct G as (xs & E & H). exists xs. split; [exact E|]. rewrite (block_sums 0 d NN), block_wet. exact H. }
  induction (osums d) as [|a v IH].
  - exists []. split; [reflexivity|]. split; [congruence|intros (r & [] & _)].
  - destruct IH as (xs & E & H). cbn [map filter]. rewrite rain_xr. destruct (owet a) eqn:EW.
    + destruct a as [a|]; [|discriminate EW]. exists (a :: xs). cbn [map to_xr]. rewrite E. split; [reflexivity|]. split; [|discriminate].
      intros _. exists a. split; [left; reflexivity|]. cbn [owet] in EW. destruct (Rltb_spec 0 a); [assumption|discriminate].
    + exists xs. split; [exact E|]. rewrite H. split; intros (r & HI & P); exists r; (split; [|exact P]).
      * right. exact HI.
      * destruct HI as [->|HI]; [|exact HI]. exfalso. cbn [owet] in EW. destruct (Rltb_spec 0 r); [discriminate|contradiction].
Qed.
(** one level succeeds exactly on enough data, and otherwise raises IndexError *)
Lemma agg_enough z perc s d : map snd s = map to_xr d -> Forall nonneg d -> (0 <= z <= 100)%Z -> enough 1 d ->
  exists c, aggregate_precipitation (np_percentile z) perc s = Ok (c, pair_sums s) /\ weights_fine c.
Proof.
  intros Es NN Hz [HL HW]. destruct (wet_sums d NN) as (xs & EX & HX). destruct (np_percentile_exact z xs Hz (proj2 HX HW)) as (m & Em & _).
  assert (L2 : (2 <= length (pairs d))%nat) by (rewrite pairs_length; apply Nat.div_le_lower_bound; cbn in *; lia).
  destruct (agg_exact (np_percentile z) perc s d (Fin m) Es NN L2) as (c & E & _ & _ & A & B); [rewrite EX; exact Em|].
  exists c. split; [exact E|]. destruct (seen_or_not (Fin m) d) as [Y|N]; [exact (stats_weights _ _ _ NN (A Y))|apply sample_weights, (B N)].
Qed.
Lemma agg_not_enough z perc s d : map snd s = map to_xr d -> Forall nonneg d -> (0 <= z <= 100)%Z -> ~ enough 1 d ->
  aggregate_precipitation (np_percentile z) perc s = Err IndexError.
Proof.
  intros Es NN Hz NE. destruct (wet_sums d NN) as (xs & EX & HX). unfold aggregate_precipitation. rewrite (pair_sums_values s d Es), EX.
  destruct xs as [|x xs].
  - cbn [map]. unfold np_percentile. destruct (Z.ltb_spec z 0); [lia|]. destruct (Z.ltb_spec 100 z); [lia|]. reflexivity.
  - assert (HW : wet_block 1 d) by (apply HX; discriminate). destruct (np_percentile_exact z (x :: xs) Hz ltac:(discriminate)) as (m & Em & _). rewrite Em. cbn [bind].
    assert (L4 : (length d < 4)%nat) by (destruct (Nat.lt_ge_cases (length d) 4) as [|H4]; [assumption|exfalso; apply NE; split; [cbn; lia|exact HW]]).
    assert (L1 : (length (osums d) < 2)%nat) by (rewrite osums_half; apply Nat.div_lt_upper_bound; lia).
    destruct (osums d) as [|a [|b r]]; [discriminate EX| |cbn in L1; lia]. cbn [map length seq filter] in *.
    destruct (rain (to_xr a)) eqn:ER; [|discriminate EX]. cbn [box_types]. unfold box_type. cbn [nth]. rewrite ER. reflexivity.
Qed.

Lemma enough_dec d : Forall nonneg d -> enough 1 d \/ ~ enough 1 d.
Proof.
  intro NN. destruct (Nat.lt_ge_cases (length d) 4) as [H4|H4]; [right; intros [A _]; cbn in A; lia|].
  destruct (wet_sums d NN) as ([|x xs] & _ & HX); [right; intros [_ B]; apply HX in B; congruence|left; split; [cbn; lia|apply HX; discriminate]].
Qed.

(** ** all levels *)
Lemma levels_enough z perc : (0 <= z <= 100)%Z -> forall L s d, map snd s = map to_xr d -> Forall nonneg d -> (L = 0%nat \/ enough L d) ->
  exists ls, levels_of (np_percentile z) perc L s ls /\ Forall (fun l => weights_fine (fst l)) ls.
Proof.
  intro Hz. induction L as [|L IH]; intros s d Es NN EN; [exists []; split; constructor|].
  destruct EN as [EN|EN]; [discriminate|]. destruct (agg_enough z perc s d Es NN Hz (enough_le 1 (S L) d ltac:(lia) EN)) as (c & E & W).
  destruct (IH (pair_sums s) (osums d)) as (ls & LV & F); [exact (pair_sums_values s d Es)|exact (osums_nonneg d NN)|right; apply enough_sums; assumption|].
  exists ((c, length (pair_sums s)) :: ls). split; [econstructor; eassumption|constructor; assumption].
Qed.
Lemma levels_need z perc : (0 <= z <= 100)%Z -> forall L s d ls, map snd s = map to_xr d -> Forall nonneg d ->
  levels_of (np_percentile z) perc (S L) s ls -> enough (S L) d.
Proof.
  intro Hz. induction L as [|L IH]; intros s d ls Es NN LV; inversion LV as [|? ? c s' ls' E LV']; subst.
  - destruct (Nat.lt_ge_cases (length d) 4) as [H4|H4]; [|].
    + exfalso. rewrite (agg_not_enough z perc s d Es NN Hz) in E; [discriminate|]. intros [A _]. cbn in A. lia.
    + split; [cbn; lia|]. destruct (wet_sums d NN) as (xs & EX & HX). apply HX. intro N0. subst xs.
      unfold aggregate_precipitation in E. rewrite (pair_sums_values s d Es), EX in E. cbn [map] in E. unfold np_percentile in E.
      destruct ((z <? 0)%Z || (100 <? z)%Z); discriminate E.
  - assert (s' = pair_sums s) by (eapply agg_series; exact E). subst s'. apply enough_sums; [exact NN|].
    exact (IH (pair_sums s) (osums d) ls' (pair_sums_values s d Es) (osums_nonneg d NN) LV').
Qed.
(** the loop over the levels raises nothing but IndexError *)
Lemma loop_error z perc : (0 <= z <= 100)%Z -> forall L h total s d copies thr count x, map snd s = map to_xr d -> Forall nonneg d ->
  levels_loop (np_percentile z) perc L h total s copies thr count = Err x -> x = IndexError.
Proof.
  intro Hz. induction L as [|L IH]; intros h total s d copies thr count x Es NN E; [discriminate E|]. cbn [levels_loop] in E.
  destruct (aggregate_precipitation (np_percentile z) perc s) as [[c v]|y] eqn:EA; cbn [bind] in E.
  - destruct (agg_threshold _ _ _ _ _ EA) as (t0 & ET). rewrite ET in E. destruct (alloc_casc h c) as [h1 ci]. change (getitem [t0] 0) with (Ok t0) in E. cbn [bind] in E.
    destruct (copy_obj h1 ci) as [h2 cp]. rewrite (agg_series _ _ _ _ _ EA) in E. eapply IH; [| |exact E]; [exact (pair_sums_values s d Es)|exact (osums_nonneg d NN)].
  - destruct (enough_dec d NN) as [Y|N].
    + destruct (agg_enough z perc s d Es NN Hz Y) as (c & E2 & _). congruence.
    + rewrite (agg_not_enough z perc s d Es NN Hz N) in EA. congruence.
Qed.
(** what was calibrated has fine weights *)
Lemma levels_fine z perc : (0 <= z <= 100)%Z -> forall L s d ls, map snd s = map to_xr d -> Forall nonneg d ->
  levels_of (np_percentile z) perc L s ls -> Forall (fun l => weights_fine (fst l) /\ threshold (fst l) <> []) ls.
Proof.
  intros Hz L s d ls Es NN LV. revert d Es NN. induction LV as [|L s c s' ls E LV IH]; intros d Es NN; constructor.
  - cbn [fst]. destruct (agg_threshold _ _ _ _ _ E) as (t0 & ET). split; [|rewrite ET; discriminate]. destruct (enough_dec d NN) as [Y|N].
    + destruct (agg_enough z perc s d Es NN Hz Y) as (c' & E2 & W). assert (c' = c) by congruence. subst c'. exact W.
    + rewrite (agg_not_enough z perc s d Es NN Hz N) in E. discriminate E.
  - rewrite (agg_series _ _ _ _ _ E) in IH. exact (IH (osums d) (pair_sums_values s d Es) (osums_nonneg d NN)).
Qed.
Lemma fine_reach c draws : weights_fine c -> (forall j, exists u, draws j = Fin u /\ u <= 1 - 1 / 10 ^ 15) -> weights_reach c draws.
Proof.
  intros W D j b t Hb Ht. destruct (W b t Hb Ht) as (w & E & S & _). destruct (D j) as (u & -> & Hu).
  replace (cumw (fun k => wxx c k b t) 6) with (cumw (fun k => Fin (w k)) 6).
  - rewrite cumw_xr. change (Rleb u (Rsum (map w (seq 0 7))) = true). destruct (Rleb_spec u (Rsum (map w (seq 0 7)))) as [L|L]; [reflexivity|]. exfalso. apply L. lra.
  - unfold cumw. rewrite (E 0%nat) by lia. f_equal. apply map_ext_in. intros k Hk. apply in_seq in Hk. rewrite E by lia. reflexivity.
Qed.
(** weighted means of fine weights are fine *)
Definition numR (x : xr) : R := match x with Fin r => r | _ => 0 end.
Lemma mean_fine (ls : list (casc xr * nat)) c : ls <> [] -> Forall (fun l => (0 < snd l)%nat) ls -> Forall (fun l => weights_fine (fst l)) ls ->
  (forall k b t xs, map (fun l => wxx (fst l) k b t) ls = map Fin xs -> wxx c k b t = Fin (wmean xs (map snd ls))) -> weights_fine c.
Proof.
  intros NE PO FI H b t Hb Ht. set (ns := map snd ls). set (f := fun k => map (fun l => numR (wxx (fst l) k b t)) ls).
  assert (PS : 0 < fold_right Rplus 0 (map INR ns)).
  { apply positive_sum; [unfold ns; destruct ls; [congruence|discriminate]|]. unfold ns. clear - PO. induction PO; constructor; assumption. }
  exists (fun k => wmean (f k) ns). split.
  - intros k Hk. apply H. unfold f. rewrite map_map. apply map_ext_in. intros l Hl. rewrite Forall_forall in FI. destruct (FI l Hl b t Hb Ht) as (w & W & _).
    rewrite (W k Hk). reflexivity.
  - rewrite <- (map_map f (fun xs => wmean xs ns)). rewrite wmean_sum.
    + apply wmean_bounds; [rewrite map_length, seq_length; reflexivity|exact PS|]. apply Forall_forall. intros x Hx. apply in_map_iff in Hx as (i & <- & Hi). apply in_seq in Hi.
      unfold ns in Hi. rewrite map_length in Hi. destruct (nth_error ls i) as [l|] eqn:El; [|apply nth_error_None in El; lia].
      rewrite Forall_forall in FI. destruct (FI l (nth_error_In _ _ El) b t Hb Ht) as (w & W & B).
      replace (Rsum (map (fun xs => nth i xs 0) (map f (seq 0 7)))) with (Rsum (map w (seq 0 7))); [exact B|]. f_equal. rewrite map_map. apply map_ext_in. intros k Hk. apply in_seq in Hk.
      unfold f. assert (EN : nth_error (map (fun l => numR (wxx (fst l) k b t)) ls) i = Some (w k)) by (rewrite nth_error_map, El; cbn [option_map]; rewrite (W k) by lia; reflexivity).
      symmetry. exact (nth_error_nth _ _ 0 EN).
    + apply Forall_forall. intros xs Hx. apply in_map_iff in Hx as (k & <- & _). unfold f, ns. rewrite !map_length. reflexivity.
Qed.
