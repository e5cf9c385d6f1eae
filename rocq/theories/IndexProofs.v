(** Hourly index of a daily index with gaps (C24). *)
From Coq Require Import ZArith List Bool Lia Sorting.Sorted.
From Verif Require Import Py Num Cal Series UtilModel SpecBase TimeProofs.
Import ListNotations.
Open Scope Z_scope.

Definition zseq (a : Z) (m : nat) : list Z := grid a 1 m.

Lemma hours_flat a m : grid (a * us_day) us_hour (24 * m) = days_hours (zseq a m).
Proof.
  unfold days_hours, zseq. revert a; induction m as [|m IH]; intro a.
  - rewrite Nat.mul_0_r. reflexivity.
  - replace (24 * S m)%nat with (24 + 24 * m)%nat by lia. rewrite grid_app, (grid_S a 1). cbn [flat_map].
    f_equal. replace (a * us_day + Z.of_nat 24 * us_hour) with ((a + 1) * us_day) by (unfold us_day, us_hour; lia).
    rewrite IH. reflexivity.
Qed.

Lemma sorted_same (l1 l2 : list Z) : StronglySorted Z.lt l1 -> StronglySorted Z.lt l2 ->
  (forall x, In x l1 <-> In x l2) -> l1 = l2.
Proof.
  intro S1. revert l2. induction S1 as [|a l1 S1 IH F1]; intros l2 S2 H.
  - destruct l2 as [|b l2]; [reflexivity|]. exfalso. apply (H b). left; reflexivity.
  - destruct S2 as [|b l2 S2 F2]; [exfalso; apply (H a); left; reflexivity|].
    rewrite Forall_forall in F1, F2.
    assert (a = b) as <-.
    { assert (Ha : In a (b :: l2)) by (apply H; left; reflexivity).
      assert (Hb : In b (a :: l1)) by (apply H; left; reflexivity).
      destruct Ha as [->|Ha]; [reflexivity|]. destruct Hb as [->|Hb]; [reflexivity|].
      specialize (F1 _ Hb). specialize (F2 _ Ha). lia. }
    f_equal. apply IH; [exact S2|]. intro x. split; intro Hx.
    + assert (Hx' : In x (a :: l2)) by (apply H; right; exact Hx). destruct Hx' as [->|]; [|assumption].
      specialize (F1 _ Hx). lia.
    + assert (Hx' : In x (a :: l1)) by (apply H; right; exact Hx). destruct Hx' as [->|]; [|assumption].
      specialize (F2 _ Hx). lia.
Qed.

Lemma last_any {A} (x : A) l d d' : last (x :: l) d = last (x :: l) d'.
Proof. revert x; induction l as [|y l IH]; intro x; [reflexivity|]. apply (IH y). Qed.

Lemma zseq_sorted a m : StronglySorted Z.lt (zseq a m).
Proof.
  unfold zseq. revert a; induction m as [|m IH]; intro a; [constructor|]. rewrite grid_S. constructor; [apply IH|].
  apply Forall_forall. intros x Hx. apply grid_In in Hx. destruct Hx as (i & _ & ->). lia.
Qed.
Lemma sorted_filter f (l : list Z) : StronglySorted Z.lt l -> StronglySorted Z.lt (filter f l).
Proof.
  induction 1 as [|a l S IH F]; [constructor|]. cbn. destruct (f a); [|exact IH]. constructor; [exact IH|].
  rewrite Forall_forall in *. intros x Hx. apply filter_In in Hx. apply F, Hx.
Qed.
Lemma mem_In x l : mem x l = true <-> In x l.
Proof.
  unfold mem. rewrite existsb_exists. split.
  - intros (y & Hy & E). apply Z.eqb_eq in E. subst; exact Hy.
  - intro H. exists x. split; [exact H|apply Z.eqb_refl].
Qed.
Lemma sorted_NoDup (l : list Z) : StronglySorted Z.lt l -> NoDup l.
Proof.
  induction 1 as [|a l S IH F]; constructor; [|exact IH]. intro H. rewrite Forall_forall in F.
  specialize (F _ H). lia.
Qed.

Lemma filter_days f ds : 
  filter (fun t => f (date_of t)) (days_hours ds) = days_hours (filter f ds).
Proof.
  unfold days_hours. induction ds as [|d ds IH]; [reflexivity|]. cbn [flat_map filter]. rewrite filter_app, IH.
  assert (E : forall t, In t (grid (d * us_day) us_hour 24) -> date_of t = d)
    by (intros t Ht; apply (grid_day_dates 24 us_hour d t); [reflexivity|reflexivity|exact Ht]).
  assert (G : forall l, (forall t, In t l -> date_of t = d) ->
            filter (fun t => f (date_of t)) l = if f d then l else []).
  { induction l as [|t l IHl]; intro H; [destruct (f d); reflexivity|]. cbn [filter].
    rewrite (H t (or_introl eq_refl)), IHl by (intros; apply H; right; assumption). destruct (f d); reflexivity. }
  rewrite (G _ E). destruct (f d); reflexivity.
Qed.
Lemma rebuild_hours ds :
  map (fun t => midnight (date_of t) + hour_of t * us_hour) (days_hours ds) = days_hours ds.
Proof.
  unfold days_hours. induction ds as [|d ds IH]; [reflexivity|]. cbn [flat_map]. rewrite map_app, IH. f_equal.
  rewrite <- (map_id (grid (d * us_day) us_hour 24)) at 2. apply map_ext_in. intros t Ht.
  apply grid_In in Ht. destruct Ht as (i & Hi & ->). unfold midnight, date_of, hour_of, tod, us_hour, us_day in *.
  assert (E : (d * 86400000000 + Z.of_nat i * 3600000000) / 86400000000 = d).
  { symmetry. apply Z.div_unique with (Z.of_nat i * 3600000000); lia. }
  assert (E2 : (d * 86400000000 + Z.of_nat i * 3600000000) mod 86400000000 = Z.of_nat i * 3600000000).
  { symmetry. apply Z.mod_unique with d; lia. }
  rewrite E. first [rewrite E2|idtac]. rewrite ?Z.div_mul by lia. lia.
Qed.

Lemma days_hours_length ds : length (days_hours ds) = (24 * length ds)%nat.
Proof.
  unfold days_hours. induction ds as [|d ds IH]; [reflexivity|]. cbn [flat_map length].
  rewrite app_length, IH, grid_length. lia.
Qed.

Lemma min_sorted a ds : StronglySorted Z.lt (a :: ds) -> idx_min (map midnight (a :: ds)) = Some (midnight a).
Proof.
  intro H. inversion H as [|? ? S F]; subst. cbn [map idx_min]. f_equal. clear H S.
  induction F as [|b l Hb F IH]; [reflexivity|]. cbn [map fold_left].
  rewrite Z.min_l by (unfold midnight, us_day; lia). exact IH.
Qed.
Lemma max_sorted a ds : StronglySorted Z.lt (a :: ds) ->
  idx_max (map midnight (a :: ds)) = Some (midnight (last (a :: ds) a)).
Proof.
  intro H. cbn [map idx_max]. f_equal. revert a H. induction ds as [|b l IH]; intros a H; [reflexivity|].
  inversion H as [|? ? S F]; subst. inversion F as [|? ? Hab F']; subst. cbn [map fold_left].
  rewrite Z.max_r by (unfold midnight, us_day; lia). rewrite (IH b S). f_equal.
  apply (last_any b l b a).
Qed.
Lemma last_ge a ds : StronglySorted Z.lt (a :: ds) -> forall x, In x (a :: ds) -> a <= x <= last (a :: ds) a.
Proof.
  revert a. induction ds as [|b l IH]; intros a H x Hx.
  - destruct Hx as [->|[]]. cbn. lia.
  - inversion H as [|? ? S F]; subst. inversion F as [|? ? Hab F']; subst.
    assert (L : last (a :: b :: l) a = last (b :: l) b).
    { apply (last_any b l a b). }
    rewrite L. destruct Hx as [->|Hx].
    + specialize (IH b S b (or_introl eq_refl)). lia.
    + specialize (IH b S x Hx). lia.
Qed.

(** any set of days *)
Lemma hourly_index_days e ds : ds <> [] -> StronglySorted Z.lt ds ->
  hourly_index e (map midnight ds)
  = if Nat.ltb (length ds) (length (zseq (hd 0 ds) (Z.to_nat (last ds 0 - hd 0 ds + 1)))) && negb (has_index_to_datetime e)
    then Err AttributeError else Ok (days_hours ds).
Proof.
  intros NE SS. destruct ds as [|a l]; [congruence|].
  pose proof (last_ge a l SS) as RNG.
  assert (LL : last (a :: l) 0 = last (a :: l) a)
    by (apply last_any).
  cbn [hd]. rewrite LL. set (b := last (a :: l) a) in *. clear LL.
  assert (Hab : a <= b) by (apply RNG; left; reflexivity).
  unfold hourly_index, hourly_index_gen. rewrite min_sorted, max_sorted by exact SS. fold b.
  set (m := Z.to_nat (b - a + 1)).
  assert (DR : date_range (midnight a) (replace_hour (midnight b) 23) us_hour = days_hours (zseq a m)).
  { assert (RB : replace_hour (midnight b) 23 = b * us_day + 23 * us_hour).
    { unfold replace_hour, below_hour, tod, midnight, date_of, us_day, us_hour, us_minute in *.
      rewrite ?Z.div_mul, ?Z.mod_mul by lia. 
      rewrite Z.mod_0_l by lia. lia. }
    rewrite RB. unfold midnight. rewrite date_range_grid by (unfold us_day, us_hour in *; lia).
    rewrite <- hours_flat. f_equal. unfold m, us_day, us_hour.
    replace (b * 86400000000 + 23 * 3600000000 - a * 86400000000) with ((24 * (b - a) + 23) * 3600000000) by lia.
    rewrite Z.div_mul by lia. lia. }
  rewrite DR. cbn [negb andb]. rewrite days_hours_length, map_length.
  assert (FD : filter (fun d => mem d (a :: l)) (zseq a m) = a :: l).
  { apply sorted_same; [apply sorted_filter, zseq_sorted|exact SS|]. intro x. rewrite filter_In, mem_In. split; [tauto|].
    intro Hx. split; [|exact Hx]. unfold zseq. apply grid_In. specialize (RNG x Hx).
    exists (Z.to_nat (x - a)). unfold m. split; lia. }
  assert (DM : map date_of (map midnight (a :: l)) = a :: l).
  { rewrite map_map. rewrite <- (map_id (a :: l)) at 2. apply map_ext. intro x.
    unfold date_of, midnight, us_day. apply Z.div_mul. lia. }
  rewrite DM, (filter_days (fun d => mem d (a :: l))), FD, rebuild_hours.
  replace (Nat.ltb (length (a :: l) * 24) (24 * length (zseq a m)))
    with (Nat.ltb (length (a :: l)) (length (zseq a m)))
    by (destruct (Nat.ltb_spec (length (a :: l)) (length (zseq a m))), (Nat.ltb_spec (length (a :: l) * 24) (24 * length (zseq a m))); lia).
  destruct (Nat.ltb_spec (length (a :: l)) (length (zseq a m))) as [LT|GE]; cbn [andb].
  - destruct (has_index_to_datetime e); reflexivity.
  - f_equal. f_equal. symmetry. apply sorted_same; [exact SS|apply zseq_sorted|].
    assert (I : incl (a :: l) (zseq a m)).
    { intros x Hx. rewrite <- FD in Hx. apply filter_In in Hx. apply Hx. }
    intro x. split; [apply I|]. apply (NoDup_length_incl (sorted_NoDup _ SS) GE I).
Qed.

(** the case distinction in words *)
Lemma gap_length ds g : StronglySorted Z.lt ds -> ds <> [] ->
  ~ In g ds -> (exists x y, In x ds /\ In y ds /\ x < g < y) ->
  (length ds < length (zseq (hd 0%Z ds) (Z.to_nat (last ds 0 - hd 0 ds + 1)%Z)))%nat.
Proof.
  intros SS NE NI (x & y & Hx & Hy & G). destruct ds as [|a l]; [congruence|].
  pose proof (last_ge a l SS) as RNG. cbn [hd].
  assert (LL : last (a :: l) 0 = last (a :: l) a)
    by (apply last_any).
  rewrite LL. set (b := last (a :: l) a) in *.
  apply (NoDup_incl_length (l := g :: a :: l)).
  - constructor; [exact NI|apply sorted_NoDup, SS].
  - intros z [<-|Hz]; unfold zseq; apply grid_In.
    + pose proof (RNG x Hx). pose proof (RNG y Hy). exists (Z.to_nat (g - a)). split; lia.
    + pose proof (RNG z Hz). exists (Z.to_nat (z - a)). split; lia.
Qed.

Lemma hourly_index_gaps e ds g : StronglySorted Z.lt ds -> ~ In g ds ->
  (exists x y, In x ds /\ In y ds /\ x < g < y) ->
  hourly_index e (map midnight ds)
  = if has_index_to_datetime e then Ok (days_hours ds) else Err AttributeError.
Proof.
  intros SS NI G. assert (NE : ds <> []) by (destruct G as (x & _ & Hx & _); destruct ds; [destruct Hx|discriminate]).
  rewrite hourly_index_days by assumption.
  pose proof (gap_length ds g SS NE NI G) as L. apply Nat.ltb_lt in L. rewrite L. cbn [andb].
  destruct (has_index_to_datetime e); reflexivity.
Qed.
Lemma hourly_index_gapfree e ds : ds <> [] -> StronglySorted Z.lt ds ->
  (forall g x y, In x ds -> In y ds -> x < g < y -> In g ds) ->
  hourly_index e (map midnight ds) = Ok (days_hours ds).
Proof.
  intros NE SS G. rewrite hourly_index_days by assumption.
  destruct (Nat.ltb_spec (length ds) (length (zseq (hd 0 ds) (Z.to_nat (last ds 0 - hd 0 ds + 1))))) as [L|]; [|reflexivity].
  exfalso. apply (Nat.lt_irrefl (length ds)). eapply Nat.lt_le_trans; [exact L|].
  apply NoDup_incl_length; [apply sorted_NoDup, zseq_sorted|].
  intros z Hz. destruct ds as [|a l]; [congruence|]. cbn [hd] in Hz.
  assert (LL : In (last (a :: l) 0) (a :: l)).
  { clear. revert a. induction l as [|b l IH]; intro a; [left; reflexivity|]. right. apply (IH b). }
  unfold zseq in Hz. apply grid_In in Hz. destruct Hz as (i & Hi & ->).
  pose proof (last_ge a l SS _ LL) as R0.
  destruct (Z.eq_dec (Z.of_nat i) 0) as [E|E]; [rewrite E; left; lia|].
  destruct (Z.eq_dec (a + Z.of_nat i * 1) (last (a :: l) 0)) as [E2|E2]; [rewrite E2; exact LL|].
  apply (G _ a (last (a :: l) 0)); [left; reflexivity|exact LL|lia].
Qed.

Lemma grid_sorted t0 st n : 0 < st -> StronglySorted Z.lt (grid t0 st n).
Proof.
  intro Hst. revert t0; induction n as [|n IH]; intro t0; [constructor|]. rewrite grid_S. constructor; [apply IH|].
  apply Forall_forall. intros x Hx. apply grid_In in Hx. destruct Hx as (i & _ & ->). nia.
Qed.
Lemma sorted_app (l1 l2 : list Z) : StronglySorted Z.lt l1 -> StronglySorted Z.lt l2 ->
  (forall x y, In x l1 -> In y l2 -> x < y) -> StronglySorted Z.lt (l1 ++ l2).
Proof.
  intros S1 S2 H. induction S1 as [|a l1 S1 IH F]; [exact S2|]. cbn. constructor.
  - apply IH. intros; apply H; [right|]; assumption.
  - apply Forall_app. split; [exact F|]. apply Forall_forall. intros y Hy. apply H; [left; reflexivity|exact Hy].
Qed.
Lemma days_hours_In t ds : In t (days_hours ds) -> In (t / us_day) ds.
Proof.
  unfold days_hours. rewrite in_flat_map. intros (d & Hd & Ht).
  rewrite (grid_day_dates 24 us_hour d t) by first [reflexivity|exact Ht]. exact Hd.
Qed.
Lemma days_hours_sorted ds : StronglySorted Z.lt ds -> StronglySorted Z.lt (days_hours ds).
Proof.
  induction 1 as [|d ds SS IH F]; [constructor|]. unfold days_hours in *. cbn [flat_map].
  apply sorted_app; [apply grid_sorted; reflexivity|exact IH|].
  intros x y Hx Hy. apply days_hours_In in Hy.
  apply (grid_day_dates 24 us_hour d x) in Hx; [|reflexivity|reflexivity].
  rewrite Forall_forall in F. specialize (F _ Hy).
  destruct (Z.lt_ge_cases x y); [assumption|]. exfalso.
  assert (y / us_day <= x / us_day) by (apply Z.div_le_mono; [reflexivity|lia]). lia.
Qed.
