(** Sub-daily indices with and without gaps (C97). *)
From Coq Require Import ZArith List Bool Lia Sorting.Sorted.
From Verif Require Import Py Num Cal Series UtilModel IndexModel SpecBase SpecIndex TimeProofs IndexProofs.
Import ListNotations.
Open Scope Z_scope.

Lemma all_days_zseq ds : all_days ds = zseq (hd 0 ds) (Z.to_nat (last ds 0 - hd 0 ds + 1)).
Proof. unfold all_days, zseq, grid. apply map_ext. intro i. lia. Qed.

  Lemma rebuild_second t :
    midnight (date_of t) + hour_of t * us_hour + minute_of t * us_minute + second_of t * us_second
    = whole_second t.
  Proof.
    unfold midnight, date_of, hour_of, minute_of, second_of, whole_second, tod,
      us_day, us_hour, us_minute, us_second. Z.to_euclidean_division_equations. lia.
  Qed.
  Lemma whole_steps k st ds : st mod us_second = 0 -> map whole_second (days_steps k st ds) = days_steps k st ds.
  Proof.
    intro E. rewrite <- (map_id (days_steps k st ds)) at 2. apply map_ext_in. intros t Ht.
    unfold days_steps in Ht. apply in_flat_map in Ht. destruct Ht as (d & _ & Ht). apply in_map_iff in Ht.
    destruct Ht as (i & <- & _). unfold whole_second.
    apply Z.mod_divide in E; [|unfold us_second; lia]. destruct E as [q ->].
    replace (d * us_day + Z.of_nat i * (q * us_second)) with ((d * 86400 + Z.of_nat i * q) * us_second)
      by (unfold us_day, us_second; ring).
    rewrite Z.mod_mul by (unfold us_second; lia). lia.
  Qed.

Section Steps.
  Context (k : nat) (st : Z) (Hst : us_second <= st) (Hk : Z.of_nat k * st = us_day).

  Lemma steps_flat a m : grid (a * us_day) st (k * m) = days_steps k st (zseq a m).
  Proof.
    unfold days_steps, zseq. revert a; induction m as [|m IH]; intro a.
    - rewrite Nat.mul_0_r. reflexivity.
    - replace (k * S m)%nat with (k + k * m)%nat by lia. rewrite grid_app, (grid_S a 1). cbn [flat_map].
      f_equal. replace (a * us_day + Z.of_nat k * st) with ((a + 1) * us_day) by lia.
      rewrite IH. reflexivity.
  Qed.

  Lemma filter_steps f ds :
    filter (fun t => f (date_of t)) (days_steps k st ds) = days_steps k st (filter f ds).
  Proof.
    unfold days_steps. induction ds as [|d ds IH]; [reflexivity|]. cbn [flat_map filter]. rewrite filter_app, IH.
    assert (E : forall t, In t (grid (d * us_day) st k) -> date_of t = d)
      by (intros t Ht; apply (grid_day_dates k st d t); [unfold us_second in Hst; lia|exact Hk|exact Ht]).
    assert (G : forall l, (forall t, In t l -> date_of t = d) ->
              filter (fun t => f (date_of t)) l = if f d then l else []).
    { induction l as [|t l IHl]; intro H; [destruct (f d); reflexivity|]. cbn [filter].
      rewrite (H t (or_introl eq_refl)), IHl by (intros; apply H; right; assumption). destruct (f d); reflexivity. }
    unfold grid in *. rewrite (G _ E). destruct (f d); reflexivity.
  Qed.

  Lemma days_steps_length ds : length (days_steps k st ds) = (k * length ds)%nat.
  Proof.
    unfold days_steps. induction ds as [|d ds IH]; [cbn; lia|]. cbn [flat_map length].
    rewrite app_length, IH, map_length, seq_length. lia.
  Qed.

  Lemma date_range_steps a b : a <= b ->
    date_range (midnight a) (replace_hms (midnight b) 23 59 59) st
    = days_steps k st (zseq a (Z.to_nat (b - a + 1))).
  Proof.
    intro Hab.
    assert (E : replace_hms (midnight b) 23 59 59 = (b + 1) * us_day - us_second).
    { unfold replace_hms. rewrite date_midnight.
      assert (tod (midnight b) = 0) as -> by (unfold tod, midnight, us_day; apply Z.mod_mul; lia).
      rewrite Zmod_0_l. unfold us_day, us_hour, us_minute, us_second. lia. }
    rewrite E. unfold midnight. unfold us_second in *.
    rewrite date_range_grid by (unfold us_day in *; lia). rewrite <- steps_flat. f_equal.
    set (m := b - a + 1).
    replace ((b + 1) * us_day - 1000000 - a * us_day) with ((Z.of_nat k * m - 1) * st + (st - 1000000))
      by (unfold m; replace ((b + 1) * us_day - 1000000 - a * us_day) with (us_day * (b - a + 1) - 1000000) by ring; rewrite <- Hk; ring).
    rewrite Z.div_add_l by lia. rewrite (Z.div_small (st - 1000000)) by lia.
    replace (Z.of_nat k * m - 1 + 0 + 1) with (Z.of_nat k * m) by ring.
    rewrite Z2Nat.inj_mul by (unfold m; lia). rewrite Nat2Z.id. reflexivity.
  Qed.

  Lemma step_index_days e f ds : ds <> [] -> StronglySorted Z.lt ds ->
    step_index e f (map midnight ds) st k
    = if f then Ok (days_steps k st (all_days ds))
      else if Nat.ltb (length ds) (length (all_days ds))
           then if has_index_to_datetime e then Ok (map whole_second (days_steps k st ds)) else Err AttributeError
           else Ok (days_steps k st ds).
  Proof.
    intros NE SS. rewrite all_days_zseq. destruct ds as [|a l]; [congruence|].
    pose proof (last_ge a l SS) as RNG.
    assert (LL : last (a :: l) 0 = last (a :: l) a) by (apply last_any).
    cbn [hd]. rewrite LL. set (b := last (a :: l) a) in *. clear LL.
    assert (Hab : a <= b) by (apply RNG; left; reflexivity).
    unfold step_index. rewrite min_sorted, max_sorted by exact SS. fold b.
    rewrite date_range_steps by exact Hab. set (m := Z.to_nat (b - a + 1)).
    destruct f; [reflexivity|]. cbn [negb andb]. rewrite days_steps_length, map_length.
    assert (FD : filter (fun d => mem d (a :: l)) (zseq a m) = a :: l).
    { apply sorted_same; [apply sorted_filter, zseq_sorted|exact SS|]. intro x. rewrite filter_In, mem_In. split; [tauto|].
      intro Hx. split; [|exact Hx]. unfold zseq. apply grid_In. specialize (RNG x Hx).
      exists (Z.to_nat (x - a)). unfold m. split; lia. }
    assert (DM : map date_of (map midnight (a :: l)) = a :: l).
    { rewrite map_map. rewrite <- (map_id (a :: l)) at 2. apply map_ext. intro x.
      unfold date_of, midnight, us_day. apply Z.div_mul. lia. }
    rewrite DM, (filter_steps (fun d => mem d (a :: l))), FD.
    rewrite (map_ext _ whole_second rebuild_second).
    assert (K0 : (0 < k)%nat) by (destruct k; [unfold us_day in Hk; cbn in Hk; lia|lia]).
    replace (Nat.ltb (length (a :: l) * k) (k * length (zseq a m)))
      with (Nat.ltb (length (a :: l)) (length (zseq a m)))
      by (destruct (Nat.ltb_spec (length (a :: l)) (length (zseq a m))), (Nat.ltb_spec (length (a :: l) * k) (k * length (zseq a m))); nia).
    destruct (Nat.ltb_spec (length (a :: l)) (length (zseq a m))) as [LT|GE]; [reflexivity|].
    f_equal. f_equal. symmetry. apply sorted_same; [exact SS|apply zseq_sorted|].
    assert (I : incl (a :: l) (zseq a m)).
    { intros x Hx. rewrite <- FD in Hx. apply filter_In in Hx. apply Hx. }
    intro x. split; [apply I|]. apply (NoDup_length_incl (sorted_NoDup _ SS) GE I).
  Qed.

End Steps.

Lemma all_days_same ds : ds <> [] -> StronglySorted Z.lt ds -> no_gap ds -> all_days ds = ds.
Proof.
  intros NE SS G. rewrite all_days_zseq. destruct ds as [|a l]; [congruence|].
  pose proof (last_ge a l SS) as RNG.
  assert (LI : In (last (a :: l) 0) (a :: l)).
  { clear. revert a. induction l as [|b l IH]; intro a; [left; reflexivity|]. right. apply (IH b). }
  assert (LL : last (a :: l) 0 = last (a :: l) a) by (apply last_any).
  cbn [hd]. apply sorted_same; [apply zseq_sorted|exact SS|]. intro x. unfold zseq. rewrite grid_In. split.
  - intros (i & Hi & ->). pose proof (RNG _ LI).
    destruct (Z.eq_dec (a + Z.of_nat i * 1) a) as [->|]; [left; reflexivity|].
    destruct (Z.eq_dec (a + Z.of_nat i * 1) (last (a :: l) 0)) as [->|]; [exact LI|].
    apply (G _ a (last (a :: l) 0)); [left; reflexivity|exact LI|lia].
  - intro Hx. specialize (RNG x Hx). exists (Z.to_nat (x - a)). rewrite LL. split; lia.
Qed.
Lemma all_days_longer ds : ds <> [] -> StronglySorted Z.lt ds -> ~ no_gap ds ->
  Nat.ltb (length ds) (length (all_days ds)) = true.
Proof.
  intros NE SS G. apply Nat.ltb_lt. rewrite all_days_zseq.
  destruct (le_lt_dec (length (zseq (hd 0 ds) (Z.to_nat (last ds 0 - hd 0 ds + 1)))) (length ds)) as [L|L]; [|exact L].
  exfalso. apply G. intros g x y Hx Hy Hg. destruct (in_dec Z.eq_dec g ds) as [|NI]; [assumption|].
  pose proof (gap_length ds g SS NE NI (ex_intro _ x (ex_intro _ y (conj Hx (conj Hy Hg))))). lia.
Qed.
