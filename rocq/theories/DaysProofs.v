(** Hourly series over consecutive days, day by day; NaN-skipping aggregation over exact reals. *)
From Coq Require Import ZArith List Bool Lia Reals Lra.
From Verif Require Import Py Num Cal Series UtilModel UtilModel2 SpecBase SpecUtil TimeProofs IndexProofs EqualProofs CascadeFive.
Import ListNotations.
Open Scope Z_scope.

(** ** hours as (day, hour) *)
Definition stamp (d : Z) (h : nat) : Z := d * us_day + Z.of_nat h * us_hour.

Lemma stamp_date d h : (h < 24)%nat -> date_of (stamp d h) = d.
Proof. intro H. apply (date_hour d (Z.of_nat h)). lia. Qed.
Lemma stamp_hour d h : (h < 24)%nat -> hour_of (stamp d h) = Z.of_nat h.
Proof. intro H. apply (date_hour d (Z.of_nat h)). lia. Qed.
Lemma stamp_month d h : (h < 24)%nat -> month_of (stamp d h) = month_of_day d.
Proof. intro H. unfold month_of. rewrite stamp_date by exact H. reflexivity. Qed.
Lemma day_start_date d : date_of (d * us_day) = d.
Proof. apply date_midnight. Qed.

Lemma in_hours d0 n t : In t (hours_index d0 n) <-> exists i h, (i < n)%nat /\ (h < 24)%nat /\ t = stamp (d0 + Z.of_nat i) h.
Proof.
  rewrite grid_hours_days. rewrite in_concat. split.
  - intros (l & Hl & Ht). apply in_map_iff in Hl as (i & <- & Hi). apply in_seq in Hi.
    apply grid_In in Ht as (h & Hh & ->). exists i, h. repeat split; [lia|exact Hh].
  - intros (i & h & Hi & Hh & ->). eexists. split; [apply in_map_iff; exists i; split; [reflexivity|apply in_seq; lia]|].
    apply grid_In. exists h. split; [exact Hh|reflexivity].
Qed.

Lemma values_on_map_hours {A} (f : Z -> A) d0 n i : (i < n)%nat ->
  values_on (d0 + Z.of_nat i) (map (fun t => (t, f t)) (hours_index d0 n))
  = map (fun h => f (stamp (d0 + Z.of_nat i) h)) (seq 0 24).
Proof.
  intro Hi.
  assert (E : map (fun t => (t, f t)) (hours_index d0 n) = combine (hours_index d0 n) (map f (hours_index d0 n))).
  { generalize (hours_index d0 n). induction l as [|x l IH]; [reflexivity|]. cbn. f_equal. exact IH. }
  rewrite E, values_on_hours; [|rewrite map_length; unfold hours_index; apply grid_length|exact Hi].
  rewrite grid_hours_days, concat_map, map_map.
  rewrite chunk_concat24.
  - set (F := fun x => map f (grid ((d0 + Z.of_nat x) * us_day) us_hour 24)).
    rewrite nth_indep with (d' := F 0%nat) by (rewrite map_length, seq_length; exact Hi).
    rewrite (map_nth F), seq_nth by exact Hi. unfold F, grid. rewrite map_map. reflexivity.
  - apply Forall_forall. intros v Hv. apply in_map_iff in Hv as (x & <- & _). rewrite map_length. apply grid_length.
  - rewrite map_length, seq_length. exact Hi.
Qed.

Lemma concat_chunks {A} n : forall l : list A, length l = (24 * n)%nat ->
  l = concat (map (fun i => chunk 24 i l) (seq 0 n)).
Proof.
  induction n as [|n IH]; intros l H; [destruct l; [reflexivity|cbn in H; lia]|].
  cbn [seq map concat]. rewrite <- (firstn_skipn 24 l) at 1. f_equal.
  rewrite (IH (skipn 24 l)) at 1 by (rewrite skipn_length; lia).
  rewrite <- seq_shift, map_map. f_equal. apply map_ext. intro i. unfold chunk. f_equal.
  replace (24 * S i)%nat with (24 + 24 * i)%nat by lia. rewrite skipn_add. reflexivity.
Qed.

(** an hourly series is determined by its index and its values on each day *)
Lemma series_ext {A} d0 n (s1 s2 : list (Z * A)) :
  map fst s1 = hours_index d0 n -> map fst s2 = hours_index d0 n ->
  (forall i, (i < n)%nat -> values_on (d0 + Z.of_nat i) s1 = values_on (d0 + Z.of_nat i) s2) -> s1 = s2.
Proof.
  intros H1 H2 HV.
  assert (C : forall s : list (Z * A), s = combine (map fst s) (map snd s)).
  { induction s as [|[t v] s IH]; [reflexivity|]. cbn. f_equal. exact IH. }
  assert (L : forall s : list (Z * A), map fst s = hours_index d0 n -> length (map snd s) = (24 * n)%nat).
  { intros s H. rewrite map_length, <- (map_length fst), H. unfold hours_index. apply grid_length. }
  rewrite (C s1), (C s2), H1, H2. f_equal.
  rewrite (concat_chunks n (map snd s1) (L s1 H1)), (concat_chunks n (map snd s2) (L s2 H2)). f_equal.
  apply map_ext_in. intros i Hi. apply in_seq in Hi. specialize (HV i ltac:(lia)).
  rewrite (C s1), (C s2), H1, H2, !values_on_hours in HV by (auto; lia). exact HV.
Qed.

(** the value of a daily list on the date of a time stamp *)
Definition at_day {A} (d0 : Z) (l : list A) (def : A) (t : Z) : A := nth (Z.to_nat (date_of t - d0)) l def.

Lemma at_day_stamp {A} d0 (l : list A) def i h : (h < 24)%nat -> at_day d0 l def (stamp (d0 + Z.of_nat i) h) = nth i l def.
Proof. intro H. unfold at_day. rewrite stamp_date by exact H. f_equal. lia. Qed.

(** [distribute_equally] over exact reals: every hour has its own day's value *)
Lemma distribute_xr e d0 (a : list xr) : a <> [] ->
  distribute_equally e (daily d0 a) false
  = Ok (map (fun t => (t, at_day d0 a NaN t)) (hours_index d0 (length a))).
Proof.
  intro NE. destruct (distribute_own_day (T := xr) (N := Num_xr) eq_refl e d0 a NE) as (out & E & I & D).
  rewrite E. f_equal. apply (series_ext d0 (length a)); [exact I|rewrite map_map; apply map_id|].
  intros i Hi. rewrite values_on_map_hours by exact Hi.
  destruct (D i (nth i a NaN) (nth_error_nth' a NaN Hi)) as [L V].
  assert (R : map (fun h => at_day d0 a NaN (stamp (d0 + Z.of_nat i) h)) (seq 0 24) = repeat (nth i a NaN) 24).
  { cbn [seq map repeat]. rewrite !at_day_stamp by lia. reflexivity. }
  rewrite R. destruct (nth i a NaN) eqn:EN; cbn [n_isnan Num_xr xisnan] in V; try exact V.
  rewrite <- L. clear - V. induction V as [|x l Hx F IH]; [reflexivity|]. cbn [length repeat]. rewrite <- IH. destruct x; try discriminate. reflexivity.
Qed.
Lemma distribute_xr_divide e d0 (a : list xr) : a <> [] ->
  distribute_equally e (daily d0 a) true
  = Ok (map (fun t => (t, (at_day d0 a NaN t / Fin 24)%num)) (hours_index d0 (length a))).
Proof.
  intro NE. pose proof (distribute_xr e d0 a NE) as H. unfold distribute_equally in *.
  destruct (hourly_index e (index (daily d0 a))) as [idx|]; [|discriminate]. cbn [bind] in *.
  destruct (reindex (daily d0 a) idx) as [h|]; [|discriminate]. cbn [bind] in *.
  injection H as ->. rewrite map_map. reflexivity.
Qed.

(** ** daily aggregation of an hourly series *)
Lemma hours_min d0 n : idx_min (hours_index d0 (S n)) = Some (d0 * us_day).
Proof. unfold hours_index. replace (24 * S n)%nat with (S (24 * n + 23)) by lia. apply idx_min_grid. unfold us_hour; lia. Qed.
Lemma hours_max d0 n : idx_max (hours_index d0 (S n)) = Some (stamp (d0 + Z.of_nat n) 23).
Proof.
  unfold hours_index. replace (24 * S n)%nat with (S (24 * n + 23)) by lia. rewrite idx_max_grid by (unfold us_hour; lia).
  f_equal. unfold stamp, us_day, us_hour. lia.
Qed.
Lemma resample_hours {T} {N : Num T} agg d0 n (s : series T) : map fst s = hours_index d0 n ->
  resample us_day agg s = map (fun i => ((d0 + Z.of_nat i) * us_day, agg (values_on (d0 + Z.of_nat i) s))) (seq 0 n).
Proof.
  intro H. destruct n as [|n].
  - destruct s; [reflexivity|discriminate].
  - unfold resample, index. rewrite H, hours_min, hours_max.
    assert (E1 : d0 * us_day / us_day * us_day = d0 * us_day) by (rewrite Z.div_mul; [reflexivity|discriminate]).
    assert (E2 : stamp (d0 + Z.of_nat n) 23 / us_day * us_day = (d0 + Z.of_nat n) * us_day).
    { f_equal. apply stamp_date. lia. }
    rewrite E1, E2, date_range_grid by (unfold us_day; lia).
    replace (((d0 + Z.of_nat n) * us_day - d0 * us_day) / us_day + 1) with (Z.of_nat (S n)).
    2:{ replace ((d0 + Z.of_nat n) * us_day - d0 * us_day) with (Z.of_nat n * us_day) by lia. rewrite Z.div_mul by discriminate. lia. }
    rewrite Nat2Z.id. unfold grid. rewrite map_map. apply map_ext. intro i.
    replace (d0 * us_day + Z.of_nat i * us_day) with ((d0 + Z.of_nat i) * us_day) by lia. do 2 f_equal. unfold values_on. f_equal.
    apply filter_ext. intros p. 
    destruct (Z.eqb_spec (fst p / us_day) (d0 + Z.of_nat i)) as [->|NE]; [apply Z.eqb_refl|].
    apply Z.eqb_neq. intro E. apply NE. apply Z.mul_reg_r in E; [exact E|discriminate].
Qed.
Lemma daily_map {A B} (f : A -> B) d0 l : daily d0 (map f l) = map (fun p => (fst p, f (snd p))) (daily d0 l).
Proof.
  unfold daily. rewrite map_length. generalize (daily_index d0 (length l)). revert l.
  induction l as [|x l IH]; intros [|t ts]; [reflexivity..|]. cbn. f_equal. apply IH.
Qed.
Lemma daily_seq {A} (f : nat -> A) d0 n : daily d0 (map f (seq 0 n)) = map (fun i => ((d0 + Z.of_nat i) * us_day, f i)) (seq 0 n).
Proof.
  unfold daily. rewrite map_length, seq_length. unfold daily_index, grid.
  assert (G : forall n a k, combine (map (fun i => d0 * us_day + Z.of_nat i * us_day) (seq a n)) (map f (seq k n)) =
     map (fun i => ((d0 + Z.of_nat (a + i)) * us_day, f (k + i)%nat)) (seq 0 n)).
  { clear. induction n as [|n IH]; intros a k; [reflexivity|]. cbn [seq map combine]. rewrite !Nat.add_0_r. f_equal.
    - f_equal. lia.
    - rewrite IH, <- seq_shift, map_map. apply map_ext. intro i. f_equal; [f_equal; lia|f_equal; lia]. }
  rewrite (G n 0%nat 0%nat). reflexivity.
Qed.

(** any series: a day with a row has a bin *)
Lemma fold_min_le l : forall a, fold_left Z.min l a <= a /\ forall x, In x l -> fold_left Z.min l a <= x.
Proof.
  induction l as [|y l IH]; intro a; cbn [fold_left]; [split; [lia|intros x []]|].
  destruct (IH (Z.min a y)) as [H1 H2]. split; [lia|]. intros x [<-|Hx]; [lia|apply H2, Hx].
Qed.
Lemma fold_max_ge l : forall a, a <= fold_left Z.max l a /\ forall x, In x l -> x <= fold_left Z.max l a.
Proof.
  induction l as [|y l IH]; intro a; cbn [fold_left]; [split; [lia|intros x []]|].
  destruct (IH (Z.max a y)) as [H1 H2]. split; [lia|]. intros x [<-|Hx]; [lia|apply H2, Hx].
Qed.
Lemma idx_min_le l t : In t l -> exists a, idx_min l = Some a /\ a <= t.
Proof.
  destruct l as [|x l]; [intros []|]. intro H. eexists. split; [reflexivity|]. destruct (fold_min_le l x) as [H1 H2]. destruct H as [<-|H]; auto.
Qed.
Lemma idx_max_ge l t : In t l -> exists a, idx_max l = Some a /\ t <= a.
Proof.
  destruct l as [|x l]; [intros []|]. intro H. eexists. split; [reflexivity|]. destruct (fold_max_ge l x) as [H1 H2]. destruct H as [<-|H]; auto.
Qed.
Lemma lookup_map_id {A} (f : Z -> A) l t : In t l -> lookup t (map (fun u => (u, f u)) l) = Some (f t).
Proof.
  induction l as [|x l IH]; [intros []|]. intro H. cbn [map lookup]. destruct (Z.eqb_spec x t) as [->|NE]; [reflexivity|].
  apply IH. destruct H as [H|H]; [congruence|exact H].
Qed.
Lemma resample_day {T} {N : Num T} agg (s : series T) t : In t (map fst s) ->
  lookup (date_of t * us_day) (resample us_day agg s) = Some (agg (values_on (date_of t) s)).
Proof.
  intro H. unfold resample, index. destruct (idx_min_le _ _ H) as (a & -> & Ha). destruct (idx_max_ge _ _ H) as (b & -> & Hb).
  rewrite (lookup_map_id (fun u => agg (map snd (filter (fun p => fst p / us_day * us_day =? u) s)))).
  - do 2 f_equal. unfold values_on. f_equal. apply filter_ext. intros p.
    destruct (Z.eqb_spec (fst p / us_day) (date_of t)) as [->|NE]; [apply Z.eqb_refl|].
    apply Z.eqb_neq. intro E. apply NE. apply Z.mul_reg_r in E; [exact E|discriminate].
  - assert (a / us_day <= t / us_day) by (apply Z.div_le_mono; [reflexivity|exact Ha]).
    assert (t / us_day <= b / us_day) by (apply Z.div_le_mono; [reflexivity|exact Hb]).
    rewrite date_range_grid by (unfold us_day in *; lia).
    apply grid_In. exists (Z.to_nat (date_of t - a / us_day)). unfold date_of. split.
    + replace (b / us_day * us_day - a / us_day * us_day) with ((b / us_day - a / us_day) * us_day) by lia.
      rewrite Z.div_mul by discriminate. lia.
    + rewrite Z2Nat.id by lia. lia.
Qed.

(** ** NaN-skipping aggregation *)
Open Scope R_scope.
Lemma numeric_valid l : numeric l -> valid l = map Fin (fins l).
Proof.
  unfold valid. induction 1 as [|x l Hx F IH]; [reflexivity|]. cbn [filter fins flat_map].
  cbn [n_isnan Num_xr] in *. destruct x; try contradiction; cbn [xisnan negb app map]; [f_equal|]; exact IH.
Qed.
Lemma fins_Fin l : fins (map Fin l) = l.
Proof. induction l as [|x l IH]; [reflexivity|]. cbn. f_equal. exact IH. Qed.
Lemma numeric_Fin l : numeric (map Fin l).
Proof. apply Forall_forall. intros x Hx. apply in_map_iff in Hx as (r & <- & _). exact I. Qed.
Lemma fins_In l r : In r (fins l) <-> In (Fin r) l.
Proof.
  unfold fins. rewrite in_flat_map. split.
  - intros (x & Hx & Hr). destruct x; cbn in Hr; try contradiction. destruct Hr as [->|[]]. exact Hx.
  - intro H. exists (Fin r). split; [exact H|left; reflexivity].
Qed.
Lemma nansum_numeric l : numeric l -> nansum l = Fin (Rsum (fins l)).
Proof.
  intro H. rewrite <- nansum_Fin. unfold nansum. rewrite (numeric_valid l H), (numeric_valid _ (numeric_Fin _)), fins_Fin. reflexivity.
Qed.
Lemma nanmean_numeric l : numeric l -> fins l <> [] -> nanmean l = Fin (Rmean (fins l)).
Proof.
  intros H NE. unfold nanmean. rewrite nansum_numeric by exact H. rewrite numeric_valid by exact H.
  destruct (fins l) as [|a r] eqn:E; [congruence|]. cbn [map]. rewrite <- E.
  replace (length (Fin a :: map Fin r)) with (length (fins l)) by (rewrite E; cbn; rewrite map_length; reflexivity).
  assert (L : (0 < length (fins l))%nat) by (rewrite E; cbn; lia).
  change (n_ofZ ?z) with (Fin (IZR z)). rewrite <- INR_IZR_INZ. rewrite xdiv_Fin; [reflexivity|]. apply not_0_INR. lia.
Qed.
Lemma nanmean_empty l : numeric l -> fins l = [] -> nanmean l = NaN.
Proof. intros H E. unfold nanmean. rewrite numeric_valid, E by exact H. reflexivity. Qed.
Lemma fold_nmin l : forall a, exists m, fold_left nmin (map Fin l) (Fin a) = Fin m /\ (m = a \/ In m l) /\ m <= a /\ forall x, In x l -> m <= x.
Proof.
  induction l as [|y l IH]; intro a; cbn [map fold_left].
  - exists a. repeat split; [left; reflexivity|lra|intros x []].
  - unfold nmin at 2. rewrite xltb_Fin. destruct (Rltb_spec y a) as [LT|GE].
    + destruct (IH y) as (m & E & M & L & B). exists m. split; [exact E|]. split; [right; destruct M; [left; auto|right; auto]|]. split; [lra|].
      intros x [<-|Hx]; [exact L|apply B, Hx].
    + destruct (IH a) as (m & E & M & L & B). exists m. split; [exact E|]. split; [destruct M; [left; auto|right; right; auto]|]. split; [exact L|].
      intros x [<-|Hx]; [lra|apply B, Hx].
Qed.
Lemma fold_nmax l : forall a, exists m, fold_left nmax (map Fin l) (Fin a) = Fin m /\ (m = a \/ In m l) /\ a <= m /\ forall x, In x l -> x <= m.
Proof.
  induction l as [|y l IH]; intro a; cbn [map fold_left].
  - exists a. repeat split; [left; reflexivity|lra|intros x []].
  - unfold nmax at 2. rewrite xltb_Fin. destruct (Rltb_spec a y) as [LT|GE].
    + destruct (IH y) as (m & E & M & L & B). exists m. split; [exact E|]. split; [right; destruct M; [left; auto|right; auto]|]. split; [lra|].
      intros x [<-|Hx]; [exact L|apply B, Hx].
    + destruct (IH a) as (m & E & M & L & B). exists m. split; [exact E|]. split; [destruct M; [left; auto|right; right; auto]|]. split; [exact L|].
      intros x [<-|Hx]; [lra|apply B, Hx].
Qed.
Lemma nanmin_numeric l : numeric l -> fins l <> [] -> exists m, nanmin l = Fin m /\ is_min (fins l) m.
Proof.
  intros H NE. unfold nanmin. rewrite numeric_valid by exact H. destruct (fins l) as [|a r]; [congruence|]. cbn [map].
  destruct (fold_nmin r a) as (m & E & M & L & B). exists m. split; [exact E|]. split; [destruct M; [left; auto|right; auto]|]. intros x [<-|Hx]; auto.
Qed.
Lemma nanmax_numeric l : numeric l -> fins l <> [] -> exists m, nanmax l = Fin m /\ is_max (fins l) m.
Proof.
  intros H NE. unfold nanmax. rewrite numeric_valid by exact H. destruct (fins l) as [|a r]; [congruence|]. cbn [map].
  destruct (fold_nmax r a) as (m & E & M & L & B). exists m. split; [exact E|]. split; [destruct M; [left; auto|right; auto]|]. intros x [<-|Hx]; auto.
Qed.
Lemma nanmin_empty l : numeric l -> fins l = [] -> nanmin l = NaN /\ nanmax l = NaN.
Proof. intros H E. unfold nanmin, nanmax. rewrite numeric_valid, E by exact H. split; reflexivity. Qed.

Lemma Rmean_bounds l lo hi : l <> [] -> (forall x, In x l -> lo <= x <= hi) -> lo <= Rmean l <= hi.
Proof.
  intros NE B.
  assert (G : INR (length l) * lo <= Rsum l <= INR (length l) * hi).
  { clear NE. induction l as [|x l IH]; [cbn; lra|]. cbn [length]. rewrite S_INR. unfold Rsum in *. cbn [fold_right].
    pose proof (B x (or_introl eq_refl)). specialize (IH ltac:(intros; apply B; right; assumption)). lra. }
  assert (P : 0 < INR (length l)) by (apply lt_0_INR; destruct l; [congruence|cbn; lia]).
  unfold Rmean. split.
  - apply Rmult_le_reg_r with (INR (length l)); [exact P|]. unfold Rdiv. rewrite Rmult_assoc, Rinv_l by lra. lra.
  - apply Rmult_le_reg_r with (INR (length l)); [exact P|]. unfold Rdiv. rewrite Rmult_assoc, Rinv_l by lra. lra.
Qed.
Lemma values_on_numeric d s : numeric (map snd s) -> numeric (values_on d s).
Proof.
  unfold numeric, values_on. rewrite !Forall_forall. intros H x Hx. apply H. apply in_map_iff in Hx as (p & <- & Hp).
  apply in_map. apply filter_In in Hp as [Hp _]. exact Hp.
Qed.
