(** C97: the sub-daily time indices. *)
From Coq Require Import ZArith List Bool Lia Sorting.Sorted.
From Verif Require Import Py Num Cal Series UtilModel IndexModel PrecipModel SpecBase SpecIndex
  TimeProofs IndexProofs IndexProofs2 CascadeFive.
Import ListNotations.
Open Scope Z_scope.

(** the functions used elsewhere are these with the default argument *)
Lemma sub_level_index_default e daily L : sub_level_index e daily L = sub_level_index_gen e false daily L.
Proof. reflexivity. Qed.
Lemma fmin_index_default e daily : fmin_index e daily = fmin_index_gen e false daily.
Proof. reflexivity. Qed.

(** Without gaps every environment and both values of fill_gaps give, for every listed day, the 288
    stamps five minutes apart from midnight on, and the 2^L stamps of level L. *)
Theorem C97_gap_free : forall e fill ds, ds <> [] -> StronglySorted Z.lt ds -> no_gap ds ->
  fmin_index_gen e fill (map midnight ds) = Ok (days_steps 288 (5 * us_minute) ds)
  /\ forall L, (L <= 11)%nat -> exists step, Z.of_nat (2 ^ L) * step = us_day
     /\ sub_level_index_gen e fill (map midnight ds) L = Ok (days_steps (2 ^ L) step ds).
Proof.
  intros e f ds NE SS G. pose proof (all_days_same ds NE SS G) as A.
  assert (LT : Nat.ltb (length ds) (length (all_days ds)) = false) by (rewrite A; apply Nat.ltb_irrefl).
  split.
  - unfold fmin_index_gen. rewrite (step_index_days 288 (5 * us_minute) ltac:(discriminate) eq_refl e f ds NE SS), LT, A.
    destruct f; reflexivity.
  - intros L HL. destruct (sub_step_day L HL) as [Ed Es]. exists (sub_step L). split; [exact Ed|].
    unfold sub_level_index_gen. fold (sub_step L).
    rewrite (step_index_days (2 ^ L) (sub_step L) ltac:(unfold us_second; lia) Ed e f ds NE SS), LT, A.
    destruct f; reflexivity.
Qed.

(** fill_gaps=True: the stamps of all days from the first to the last, listed or not; also for the
    hourly index. *)
Theorem C97_fill_gaps : forall e ds, ds <> [] -> StronglySorted Z.lt ds ->
  hourly_index_gen e true (map midnight ds) = Ok (days_hours (all_days ds))
  /\ fmin_index_gen e true (map midnight ds) = Ok (days_steps 288 (5 * us_minute) (all_days ds))
  /\ forall L, (L <= 11)%nat -> exists step, Z.of_nat (2 ^ L) * step = us_day
     /\ sub_level_index_gen e true (map midnight ds) L = Ok (days_steps (2 ^ L) step (all_days ds)).
Proof.
  intros e ds NE SS. split; [|split].
  - rewrite all_days_zseq. destruct ds as [|a l]; [congruence|].
    pose proof (last_ge a l SS a (or_introl eq_refl)) as RNG.
    assert (LL : last (a :: l) 0 = last (a :: l) a) by (apply last_any).
    cbn [hd]. rewrite LL. set (b := last (a :: l) a) in *. clear LL.
    unfold hourly_index_gen. rewrite min_sorted, max_sorted by exact SS. fold b. cbn [negb andb]. f_equal.
    assert (RB : replace_hour (midnight b) 23 = b * us_day + 23 * us_hour).
    { unfold replace_hour, below_hour, tod, midnight, date_of, us_day, us_hour, us_minute in *.
      rewrite ?Z.div_mul, ?Z.mod_mul by lia. rewrite Z.mod_0_l by lia. lia. }
    rewrite RB. unfold midnight. rewrite date_range_grid by (unfold us_day, us_hour in *; lia).
    rewrite <- hours_flat. f_equal. unfold us_day, us_hour.
    replace (b * 86400000000 + 23 * 3600000000 - a * 86400000000) with ((24 * (b - a) + 23) * 3600000000) by lia.
    rewrite Z.div_mul by lia. lia.
  - unfold fmin_index_gen. rewrite (step_index_days 288 (5 * us_minute) ltac:(discriminate) eq_refl e true ds NE SS).
    reflexivity.
  - intros L HL. destruct (sub_step_day L HL) as [Ed Es]. exists (sub_step L). split; [exact Ed|].
    unfold sub_level_index_gen. fold (sub_step L).
    rewrite (step_index_days (2 ^ L) (sub_step L) ltac:(unfold us_second; lia) Ed e true ds NE SS).
    reflexivity.
Qed.

(** With gaps and fill_gaps=False: where pandas still has datetime, the stamps of the listed days only,
    cut to whole seconds (nothing is cut for five minutes and up to level 7); on current pandas the
    call fails. *)
Theorem C97_gaps : forall e ds, StronglySorted Z.lt ds -> ~ no_gap ds ->
  (fmin_index_gen e false (map midnight ds)
   = if has_index_to_datetime e then Ok (days_steps 288 (5 * us_minute) ds) else Err AttributeError)
  /\ forall L, (L <= 11)%nat -> exists step, Z.of_nat (2 ^ L) * step = us_day
     /\ sub_level_index_gen e false (map midnight ds) L
        = (if has_index_to_datetime e then Ok (map whole_second (days_steps (2 ^ L) step ds)) else Err AttributeError)
     /\ ((L <= 7)%nat -> map whole_second (days_steps (2 ^ L) step ds) = days_steps (2 ^ L) step ds).
Proof.
  intros e ds SS G.
  assert (NE : ds <> []) by (intros ->; apply G; intros g x y []).
  pose proof (all_days_longer ds NE SS G) as LT. split.
  - unfold fmin_index_gen. rewrite (step_index_days 288 (5 * us_minute) ltac:(discriminate) eq_refl e false ds NE SS), LT.
    rewrite whole_steps by reflexivity. reflexivity.
  - intros L HL. destruct (sub_step_day L HL) as [Ed Es]. exists (sub_step L). split; [exact Ed|]. split.
    + unfold sub_level_index_gen. fold (sub_step L).
      rewrite (step_index_days (2 ^ L) (sub_step L) ltac:(unfold us_second; lia) Ed e false ds NE SS), LT.
      reflexivity.
    + intro H7. apply whole_steps. clear - H7. do 8 (destruct L as [|L]; [vm_compute; reflexivity|]). lia.
Qed.

(** From level 8 on the cut is real: the stamps are no longer equally spaced. *)
Theorem C97_equally_spaced_refuted : exists e ds L t1 t2 t3 rest, (L <= 11)%nat /\ StronglySorted Z.lt ds /\
  sub_level_index_gen e false (map midnight ds) L = Ok (t1 :: t2 :: t3 :: rest) /\ t2 - t1 <> t3 - t2.
Proof.
  assert (SS : StronglySorted Z.lt [0; 2]) by (repeat constructor).
  assert (G : ~ no_gap [0; 2]).
  { intro H. specialize (H 1 0 2). cbn in H. lia. }
  destruct (proj2 (C97_gaps legacy [0; 2] SS G) 8%nat ltac:(lia)) as (step & Es & E & _).
  assert (step = 337500000) as ->.
  { change (Z.of_nat (2 ^ 8)) with 256 in Es. unfold us_day in Es. lia. }
  eexists legacy, [0; 2], 8%nat, _, _, _, _. split; [lia|]. split; [exact SS|]. split.
  - rewrite E. cbn [has_index_to_datetime legacy]. unfold days_steps. cbn [flat_map].
    change (2 ^ 8)%nat with (3 + 253)%nat. rewrite seq_app. cbn [seq]. rewrite map_app. cbn [map app]. reflexivity.
  - vm_compute. discriminate.
Qed.

Example C97_gap_free_met : [5; 6; 7] <> [] /\ StronglySorted Z.lt [5; 6; 7] /\ no_gap [5; 6; 7].
Proof. split; [discriminate|]. split; [repeat constructor|]. intros g x y. cbn. lia. Qed.
Example C97_gaps_met : StronglySorted Z.lt [5; 7] /\ ~ no_gap [5; 7] /\ all_days [5; 7] = [5; 6; 7].
Proof.
  split; [repeat constructor|]. split; [|reflexivity]. intro H. specialize (H 6 5 7). cbn in H. lia.
Qed.

Print Assumptions C97_gap_free.
Print Assumptions C97_fill_gaps.
Print Assumptions C97_gaps.
Print Assumptions C97_equally_spaced_refuted.
