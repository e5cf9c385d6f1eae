(** The mean-course methods on consecutive days. *)
From Coq Require Import String ZArith List Bool Reals Lia Lra Sorted.
From Verif Require Import Py Num Cal Series Trans UtilModel UtilModel2 Frame TempModel SpecBase SpecUtil SpecTemp
  TimeProofs IndexProofs DaysProofs InterpProofs CourseProofs TempProofs.
Import ListNotations.
Open Scope Z_scope.

Lemma self_rows {A} d0 (l : list A) : map (fun p => (fst p, p)) (daily d0 l) = daily d0 (daily d0 l).
Proof.
  assert (G : forall m d1 (s : list (Z * A)), map fst s = daily_index d1 m -> map (fun p => (fst p, p)) s = combine (daily_index d1 m) s).
  { induction m as [|m IH]; intros d1 s E.
    - destruct s; [reflexivity|discriminate].
    - rewrite daily_index_S in *. destruct s as [|[t v] s]; [discriminate|]. cbn [map fst] in E. injection E as -> E. cbn [map fst combine]. f_equal. apply IH, E. }
  unfold daily at 2. rewrite daily_length. apply G. apply daily_fst.
Qed.

Lemma fill_count d0 n i h : (i < n)%nat -> (h < 24)%nat ->
  Z.of_nat (length (filter (fun x => (((d0 + Z.of_nat i) * us_day) <? x) && (x <=? stamp (d0 + Z.of_nat i) h)) (hours_index d0 n))) <= 23.
Proof.
  intros Hi Hh.
  assert (L : (length (filter (fun x => (((d0 + Z.of_nat i) * us_day) <? x)%Z && (x <=? stamp (d0 + Z.of_nat i) h)%Z) (hours_index d0 n))
              <= length (map (fun k => stamp (d0 + Z.of_nat i)%Z (S k)) (seq 0 h)))%nat).
  { apply NoDup_incl_length.
    - apply NoDup_filter, sorted_NoDup, grid_sorted. reflexivity.
    - intros x Hx. apply filter_In in Hx as [Hx B]. apply andb_true_iff in B as [B1 B2]. apply Z.ltb_lt in B1. apply Z.leb_le in B2.
      apply in_hours in Hx as (j & k & Hj & Hk & ->).
      assert (j = i) by (unfold stamp, us_day, us_hour in *; lia). subst j.
      apply in_map_iff. exists (k - 1)%nat. unfold stamp, us_day, us_hour in *. split; [f_equal; lia|]. apply in_seq. lia. }
  rewrite map_length, seq_length in L. lia.
Qed.

Lemma reindex_limit_daily d0 (l : list xr) :
  reindex_ffill_limit 23 (daily d0 l) (hours_index d0 (length l)) = map (fun t => (t, at_day d0 l NaN t)) (hours_index d0 (length l)).
Proof.
  unfold reindex_ffill_limit. apply map_ext_in. intros t Ht. f_equal.
  apply in_hours in Ht as (i & h & Hi & Hh & ->). rewrite at_day_stamp by exact Hh. rewrite self_rows.
  rewrite last_le_daily by (rewrite ?daily_length; assumption).
  assert (E : nth_error (daily d0 l) i = Some ((d0 + Z.of_nat i) * us_day, nth i l NaN)).
  { clear - Hi. revert d0 i Hi. induction l as [|x l IH]; intros d0 [|i] Hi; cbn in Hi; try lia.
    - rewrite daily_cons. cbn. do 2 f_equal. f_equal. lia.
    - rewrite daily_cons. cbn [nth_error]. rewrite IH by lia. cbn [nth]. do 3 f_equal. lia. }
  rewrite E. pose proof (fill_count d0 (length l) i h Hi Hh) as F. apply Z.leb_le in F. rewrite F. reflexivity.
Qed.

Lemma lookup_hour_column f h : (h < 24)%nat -> lookup (Z.of_nat h) (hour_column f) = Some (Fin (f h)).
Proof.
  intro H. unfold hour_column.
  assert (E : map (fun h0 => (Z.of_nat h0, Fin (f h0))) (seq 0 24) = map (fun z => (z, Fin (f (Z.to_nat z)))) (map Z.of_nat (seq 0 24))).
  { rewrite map_map. apply map_ext. intro a. rewrite Nat2Z.id. reflexivity. }
  rewrite E. rewrite (lookup_map_id (fun z => Fin (f (Z.to_nat z)))); [rewrite Nat2Z.id; reflexivity|].
  apply in_map, in_seq. lia.
Qed.

Definition course_val (f : Z -> nat -> R) (t : Z) : R := f (month_of t) (Z.to_nat (hour_of t)).
Lemma course_at_ok c d0 n f : has_course c d0 n f ->
  mapM (course_at c) (hours_index d0 n) = Ok (map (fun t => Fin (course_val f t)) (hours_index d0 n)).
Proof.
  intro HC. apply mapM_Ok. intros t Ht. apply in_hours in Ht as (i & h & Hi & Hh & ->).
  unfold course_at, course_val. rewrite stamp_month, stamp_hour by exact Hh. rewrite <- entry_lookup, HC by exact Hi.
  rewrite lookup_hour_column by exact Hh. rewrite Nat2Z.id. reflexivity.
Qed.

Lemma combine_maps {A B C} (f : A -> B) (g : A -> C) l : combine (map f l) (map g l) = map (fun a => (f a, g a)) l.
Proof. induction l as [|a l IH]; [reflexivity|]. cbn. f_equal. exact IH. Qed.

Lemma course_min_max_ok e d d0 tmin tmax temp mmt modn md st c f : temp <> [] -> temp_frame d d0 tmin tmax temp ->
  has_course c d0 (length temp) f ->
  disaggregate_temperature e d "mean_course_min_max" mmt modn md (Some c) st
  = Ok (map (fun t => (t, (Fin (course_val f t) * (at_day d0 tmax NaN t - at_day d0 tmin NaN t) + at_day d0 tmin NaN t)%num)) (hours_index d0 (length temp))).
Proof.
  intros NE (FI & L1 & L2 & C1 & C2 & C3) HC. unfold disaggregate_temperature. cbn [String.eqb Ascii.eqb Bool.eqb orb negb].
  rewrite FI. assert (HI : hourly_index e (daily_index d0 (length temp)) = Ok (hours_index d0 (length temp))).
  { destruct temp; [contradiction|]. apply hourly_index_daily. }
  rewrite HI. cbn [bind]. rewrite daily_has_dup. unfold daily_index at 1. rewrite grid_increasing by (unfold us_day; lia). cbn [orb negb].
  rewrite (course_at_ok c d0 (length temp) f HC). cbn [bind]. unfold fcol. rewrite C1, C2, FI. cbn [bind]. f_equal.
  replace (combine (daily_index d0 (length temp)) tmin) with (daily d0 tmin) by (unfold daily; rewrite L1; reflexivity).
  replace (combine (daily_index d0 (length temp)) tmax) with (daily d0 tmax) by (unfold daily; rewrite L2; reflexivity).
  rewrite <- L1 at 2. rewrite <- L2 at 2. rewrite !reindex_limit_daily, L1, L2. rewrite !combine_maps, map_map. reflexivity.
Qed.

Lemma zero_mean_course c d0 n f : has_course c d0 n f ->
  has_course (zero_mean c) d0 n (fun m h => f m h - Rmean (map (f m) (seq 0 24)))%R.
Proof.
  intros HC i Hi. specialize (HC i Hi). set (m := month_of_day (d0 + Z.of_nat i)) in *. clearbody m.
  unfold zero_mean. rewrite entry_lookup in *.
  assert (G : forall c, lookup m c = Some (hour_column (f m)) ->
    lookup m (map (fun p => (fst p, let mu := nanmean (map snd (snd p)) in map (fun q => (fst q, (snd q - mu)%num)) (snd p))) c)
    = Some (map (fun q => (fst q, (snd q - nanmean (map snd (hour_column (f m))))%num)) (hour_column (f m)))).
  { clear. induction c as [|[k col] c IH]; intro H; [discriminate|]. cbn [map lookup fst snd] in *. destruct (k =? m); [injection H as ->; reflexivity|apply IH, H]. }
  etransitivity; [apply (G c HC)|]. f_equal.
  assert (E : map snd (hour_column (f m)) = map Fin (map (f m) (seq 0 24))) by (unfold hour_column; rewrite !map_map; reflexivity).
  rewrite E, nanmean_numeric by (apply numeric_Fin || (rewrite fins_Fin; discriminate)). rewrite fins_Fin.
  unfold hour_column at 1 2. rewrite map_map. apply map_ext. intro h. reflexivity.
Qed.

Lemma course_mean_ok e d d0 tmin tmax temp mmt modn md st c f : temp <> [] -> temp_frame d d0 tmin tmax temp ->
  has_course c d0 (length temp) f ->
  disaggregate_temperature e d "mean_course_mean" mmt modn md (Some c) st
  = Ok (map (fun t => (t, (at_day d0 temp NaN t + (at_day d0 tmax NaN t - at_day d0 tmin NaN t) *
        Fin (course_val (fun m h => f m h - Rmean (map (f m) (seq 0 24)))%R t))%num)) (hours_index d0 (length temp))).
Proof.
  intros NE (FI & L1 & L2 & C1 & C2 & C3) HC. unfold disaggregate_temperature. cbn [String.eqb Ascii.eqb Bool.eqb orb negb].
  rewrite FI. assert (HI : hourly_index e (daily_index d0 (length temp)) = Ok (hours_index d0 (length temp))).
  { destruct temp; [contradiction|]. apply hourly_index_daily. }
  rewrite HI. cbn [bind]. rewrite daily_has_dup. unfold daily_index at 1. rewrite grid_increasing by (unfold us_day; lia). cbn [orb negb].
  unfold fcol. rewrite C1, C2, C3, FI. cbn [bind].
  rewrite (course_at_ok (zero_mean c) d0 (length temp) _ (zero_mean_course c d0 (length temp) f HC)). cbn [bind]. f_equal.
  replace (combine (daily_index d0 (length temp)) tmin) with (daily d0 tmin) by (unfold daily; rewrite L1; reflexivity).
  replace (combine (daily_index d0 (length temp)) tmax) with (daily d0 tmax) by (unfold daily; rewrite L2; reflexivity).
  fold (daily d0 temp).
  rewrite <- L1 at 2. rewrite <- L2 at 2. rewrite !reindex_limit_daily, L1, L2. rewrite !combine_maps, map_map. reflexivity.
Qed.

Lemma course_val_stamp f d h : (h < 24)%nat -> course_val f (stamp d h) = f (month_of_day d) h.
Proof. intro H. unfold course_val. rewrite stamp_month, stamp_hour by exact H. rewrite Nat2Z.id. reflexivity. Qed.
