(** Mean daily courses by month. *)
From Coq Require Import ZArith List Bool Lia Reals Lra.
From Verif Require Import Py Num Cal Series UtilModel UtilModel2 SpecBase SpecUtil TimeProofs IndexProofs DaysProofs.
Import ListNotations.
Open Scope Z_scope.

Lemma entry_lookup {A} k (l : list (Z * A)) : entry_of k l = lookup k l.
Proof. induction l as [|[x v] l IH]; [reflexivity|]. cbn. rewrite IH. reflexivity. Qed.

Definition hours_of (s : series xr) : list Z :=
  filter (fun h => existsb (fun t => hour_of t =? h) (index s)) (map Z.of_nat (seq 0 24)).
Definition months_of (s : series xr) : list Z :=
  filter (fun m => existsb (fun t => month_of t =? m) (index s)) (map Z.of_nat (seq 1 12)).

Lemma mhv_occurs s m h : month_hour_values s m h <> [] -> In m (months_of s) /\ In h (hours_of s).
Proof.
  intro H. unfold month_hour_values in H.
  destruct (filter _ s) as [|p r] eqn:E; [exfalso; apply H; reflexivity|].
  assert (IP : In p (p :: r)) by (left; reflexivity). rewrite <- E in IP. apply filter_In in IP as [IP Q].
  apply andb_true_iff in Q as [Q1 Q2]. apply Z.eqb_eq in Q1, Q2.
  assert (IT : In (fst p) (index s)) by (apply in_map; exact IP).
  split; unfold months_of, hours_of; apply filter_In; (split; [|apply existsb_exists; exists (fst p); split; [exact IT|apply Z.eqb_eq; assumption]]).
  - subst m. unfold month_of. pose proof (month_range (date_of (fst p))). apply in_map_iff. exists (Z.to_nat (month_of_day (date_of (fst p)))).
    split; [lia|]. apply in_seq. lia.
  - subst h. pose proof (hour_range (fst p)). apply in_map_iff. exists (Z.to_nat (hour_of (fst p))). split; [lia|]. apply in_seq. lia.
Qed.
Lemma mhm_data s m h : numeric (map snd s) -> month_hour_values s m h <> [] ->
  month_hour_mean s m h = Fin (Rmean (month_hour_values s m h)).
Proof.
  intros HN NE. unfold month_hour_mean. apply nanmean_numeric; [|exact NE].
  unfold numeric in *. rewrite Forall_forall in *. intros x Hx. apply in_map_iff in Hx as (p & <- & Hp). apply HN, in_map. apply filter_In in Hp. tauto.
Qed.
Lemma mhm_none s m h : numeric (map snd s) -> month_hour_values s m h = [] -> month_hour_mean s m h = NaN.
Proof.
  intros HN E. unfold month_hour_mean. apply nanmean_empty; [|exact E].
  unfold numeric in *. rewrite Forall_forall in *. intros x Hx. apply in_map_iff in Hx as (p & <- & Hp). apply HN, in_map. apply filter_In in Hp. tauto.
Qed.

Definition column (s : series xr) (m : Z) : list (Z * xr) := map (fun h => (h, month_hour_mean s m h)) (hours_of s).
Lemma course_column s m norm : In m (months_of s) ->
  entry_of m (mean_course s norm) = Some (if norm then normalise (column s m) else column s m).
Proof.
  intro H. rewrite entry_lookup.
  assert (E : mean_course s norm = map (fun m => (m, if norm then normalise (column s m) else column s m)) (months_of s)).
  { unfold mean_course, months_of, column, hours_of. cbv zeta. reflexivity. }
  rewrite E.
  apply (lookup_map_id (fun m => if norm then normalise (column s m) else column s m)). exact H.
Qed.
Lemma column_numeric s m : numeric (map snd s) -> numeric (map snd (column s m)).
Proof.
  intro HN. unfold column. rewrite map_map. cbn [snd]. unfold numeric. apply Forall_forall. intros x Hx. apply in_map_iff in Hx as (h & <- & _).
  destruct (month_hour_values s m h) as [|a r] eqn:E; [rewrite mhm_none by assumption; exact I|].
  rewrite mhm_data; [exact I|exact HN|rewrite E; discriminate].
Qed.
Lemma column_fins s m r : numeric (map snd s) ->
  (In r (fins (map snd (column s m))) <-> exists h, month_hour_values s m h <> [] /\ r = Rmean (month_hour_values s m h)).
Proof.
  intro HN. rewrite fins_In. unfold column. rewrite map_map. cbn [snd]. rewrite in_map_iff. split.
  - intros (h & E & Hh). exists h. destruct (month_hour_values s m h) as [|a l] eqn:EV; [rewrite mhm_none in E by assumption; discriminate|].
    split; [discriminate|]. rewrite <- EV. rewrite mhm_data in E; [injection E as <-; reflexivity|exact HN|rewrite EV; discriminate].
  - intros (h & NE & ->). exists h. split; [apply mhm_data; assumption|]. apply (mhv_occurs s m h NE).
Qed.
Lemma normalise_entry c h v lo hi : nanmin (map snd c) = Fin lo -> nanmax (map snd c) = Fin hi ->
  entry_of h c = Some v -> entry_of h (normalise c) = Some ((v - Fin lo) / (Fin hi - Fin lo))%num.
Proof.
  intros E1 E2. unfold normalise. rewrite E1, E2. induction c as [|[x w] c IH] in |- *; [discriminate|].
  cbn [entry_of map fst snd]. destruct (x =? h); [intro E; injection E as ->; reflexivity|exact IH].
Qed.
Lemma column_entry s m h : In h (hours_of s) -> entry_of h (column s m) = Some (month_hour_mean s m h).
Proof. intro H. rewrite entry_lookup. unfold column. apply (lookup_map_id (fun h => month_hour_mean s m h)). exact H. Qed.

Open Scope R_scope.
Lemma course_normalised s m h1 h2 : numeric (map snd s) ->
  month_hour_values s m h1 <> [] -> month_hour_values s m h2 <> [] ->
  Rmean (month_hour_values s m h1) <> Rmean (month_hour_values s m h2) ->
  exists col lo hi, entry_of m (mean_course s true) = Some col /\ lo < hi /\
    (forall h, month_hour_values s m h <> [] ->
       lo <= Rmean (month_hour_values s m h) <= hi /\
       entry_of h col = Some (Fin ((Rmean (month_hour_values s m h) - lo) / (hi - lo)))) /\
    (forall h, month_hour_values s m h = [] -> entry_of h col = Some NaN \/ entry_of h col = None) /\
    (exists h, month_hour_values s m h <> [] /\ Rmean (month_hour_values s m h) = lo) /\
    (exists h, month_hour_values s m h <> [] /\ Rmean (month_hour_values s m h) = hi).
Proof.
  intros HN N1 N2 D. destruct (mhv_occurs s m h1 N1) as [Hm _].
  pose proof (column_numeric s m HN) as CN.
  assert (I1 : In (Rmean (month_hour_values s m h1)) (fins (map snd (column s m)))) by (apply column_fins; eauto).
  assert (I2 : In (Rmean (month_hour_values s m h2)) (fins (map snd (column s m)))) by (apply column_fins; eauto).
  assert (NE : fins (map snd (column s m)) <> []) by (destruct (fins _); [destruct I1|discriminate]).
  destruct (nanmin_numeric _ CN NE) as (lo & El & Il & Bl). destruct (nanmax_numeric _ CN NE) as (hi & Eh & Ih & Bh).
  assert (LT : lo < hi).
  { pose proof (Bl _ I1). pose proof (Bl _ I2). pose proof (Bh _ I1). pose proof (Bh _ I2).
    destruct (Rlt_dec lo hi) as [|N]; [assumption|]. exfalso. apply D. lra. }
  exists (normalise (column s m)), lo, hi. rewrite (course_column s m true Hm). split; [reflexivity|]. split; [exact LT|]. split; [|split; [|split]].
  - intros h NEh. assert (IH : In (Rmean (month_hour_values s m h)) (fins (map snd (column s m)))) by (apply column_fins; eauto).
    split; [split; [apply Bl, IH|apply Bh, IH]|].
    rewrite (normalise_entry _ h (Fin (Rmean (month_hour_values s m h))) lo hi El Eh).
    + rewrite !xsub_Fin, xdiv_Fin by lra. reflexivity.
    + rewrite column_entry by (apply (mhv_occurs s m h NEh)). rewrite mhm_data by assumption. reflexivity.
  - intros h E. destruct (in_dec Z.eq_dec h (hours_of s)) as [IN|NI].
    + left. rewrite (normalise_entry _ h NaN lo hi El Eh); [reflexivity|]. rewrite column_entry by exact IN. rewrite mhm_none by assumption. reflexivity.
    + right. rewrite entry_lookup.
      assert (G : forall c : list (Z * xr), ~ In h (map fst c) -> lookup h c = None).
      { induction c as [|[x w] c IH]; intro H; [reflexivity|]. cbn [map fst In lookup] in H |- *. destruct (Z.eqb_spec x h); [exfalso; apply H; left; assumption|]. apply IH. tauto. }
      apply G. unfold normalise. rewrite map_map. cbn [fst]. change (fun x : Z * xr => fst x) with (@fst Z xr). unfold column. rewrite map_map. cbn [fst]. rewrite map_id. exact NI.
  - apply column_fins in Il; [|exact HN]. destruct Il as (h & A & B). exists h. auto.
  - apply column_fins in Ih; [|exact HN]. destruct Ih as (h & A & B). exists h. auto.
Qed.
Lemma normalise_const c lo : nanmin (map snd c) = Fin lo -> nanmax (map snd c) = Fin lo ->
  (forall x, In x (map snd c) -> x = NaN \/ x = Fin lo) ->
  forall h v, entry_of h (normalise c) = Some v -> v = NaN.
Proof.
  intros E1 E2 B h v. unfold normalise. rewrite E1, E2. clear E1 E2.
  induction c as [|[x w] c IH]; [discriminate|]. cbn [map entry_of fst snd]. destruct (x =? h)%Z.
  - intro E. assert (E2 : ((w - Fin lo) / (Fin lo - Fin lo))%num = v) by congruence. rewrite <- E2. clear E E2. destruct (B w (or_introl eq_refl)) as [->| ->]; [reflexivity|].
    assert (Z0 : (Fin lo - Fin lo)%num = Fin 0) by (rewrite xsub_Fin; f_equal; lra). rewrite Z0.
    unfold n_div, Num_xr, xdiv. destruct (Reqb_spec 0 0); [reflexivity|lra].
  - apply IH. intros y Hy. apply B. right. exact Hy.
Qed.
Lemma course_constant s m : numeric (map snd s) ->
  (exists h, month_hour_values s m h <> []) ->
  (forall h1 h2, month_hour_values s m h1 <> [] -> month_hour_values s m h2 <> [] ->
     Rmean (month_hour_values s m h1) = Rmean (month_hour_values s m h2)) ->
  exists col, entry_of m (mean_course s true) = Some col /\ forall h v, entry_of h col = Some v -> v = NaN.
Proof.
  intros HN (h0 & N0) C. destruct (mhv_occurs s m h0 N0) as [Hm _].
  pose proof (column_numeric s m HN) as CN.
  assert (I0 : In (Rmean (month_hour_values s m h0)) (fins (map snd (column s m)))) by (apply column_fins; eauto).
  assert (NE : fins (map snd (column s m)) <> []) by (destruct (fins _); [destruct I0|discriminate]).
  destruct (nanmin_numeric _ CN NE) as (lo & El & Il & Bl). destruct (nanmax_numeric _ CN NE) as (hi & Eh & Ih & Bh).
  assert (EQ : hi = lo).
  { apply column_fins in Il as (ha & A & ->); [|exact HN]. apply column_fins in Ih as (hb & B & ->); [|exact HN]. apply C; assumption. }
  subst hi. exists (normalise (column s m)). rewrite (course_column s m true Hm). split; [reflexivity|].
  intros h v. apply (normalise_const _ lo); [exact El|exact Eh|].
  intros x Hx. destruct x as [r| | |].
  - right. apply fins_In in Hx. f_equal. apply Rle_antisym; [apply Bh, Hx|apply Bl, Hx].
  - unfold numeric in CN. rewrite Forall_forall in CN. destruct (CN _ Hx).
  - unfold numeric in CN. rewrite Forall_forall in CN. destruct (CN _ Hx).
  - left. reflexivity.
Qed.
Lemma course_plain s m h : numeric (map snd s) -> month_hour_values s m h <> [] ->
  exists col, entry_of m (mean_course s false) = Some col /\ entry_of h col = Some (Fin (Rmean (month_hour_values s m h))).
Proof.
  intros HN NE. destruct (mhv_occurs s m h NE) as [Hm Hh]. exists (column s m). rewrite (course_column s m false Hm). split; [reflexivity|].
  rewrite column_entry by exact Hh. rewrite mhm_data by assumption. reflexivity.
Qed.
