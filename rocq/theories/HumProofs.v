(** Proofs about the humidity model. *)
From Coq Require Import String ZArith List Bool Reals Lia Lra Sorted Floats.
From Verif Require Import Py Num Cal Series Trans UtilModel UtilModel2 Frame TempModel RadModel HumModel SpecBase SpecUtil SpecTemp SpecRad
  TimeProofs IndexProofs DaysProofs InterpProofs CourseProofs ThermoProofs TempProofs TempCourse RadProofs RadStats.
Import ListNotations.
Open Scope string_scope.
Open Scope Z_scope.
Open Scope list_scope.

(** ** clipping *)
Lemma clip1_xr x : clip1 n0 (n_ofZ 100) x = NaN \/ exists r, clip1 n0 (n_ofZ 100) x = Fin r /\ (0 <= r <= 100)%R.
Proof.
  unfold clip1. rewrite n0_xr, nofZ_xr. destruct x as [r| | |].
  - rewrite !xltb_Fin. destruct (Rltb_spec r 0); [right; exists 0%R; split; [reflexivity|lra]|].
    destruct (Rltb_spec 100 r); right; [exists 100%R; split; [reflexivity|lra]|exists r; split; [reflexivity|lra]].
  - right. exists 100%R. split; [reflexivity|lra].
  - right. exists 0%R. split; [reflexivity|lra].
  - left. reflexivity.
Qed.
Lemma clip1_id r : (0 <= r <= 100)%R -> clip1 n0 (n_ofZ 100) (Fin r) = Fin r.
Proof.
  intro H. unfold clip1. rewrite n0_xr, nofZ_xr, !xltb_Fin. destruct (Rltb_spec r 0); [lra|]. destruct (Rltb_spec 100 r); [lra|reflexivity].
Qed.
Lemma clip1_high r : (100 <= r)%R -> clip1 n0 (n_ofZ 100) (Fin r) = Fin 100.
Proof.
  intro H. unfold clip1. rewrite n0_xr, nofZ_xr, !xltb_Fin. destruct (Rltb_spec r 0); [lra|]. destruct (Rltb_spec 100 r); [reflexivity|f_equal; lra].
Qed.

Lemma float_between (x y : float) : f64_isnan x = false -> f64_isnan y = false -> (x <? y)%float = false -> (y <=? x)%float = true.
Proof.
  unfold f64_isnan. intros HX HY H. apply negb_false_iff in HX, HY. rewrite FloatAxioms.eqb_spec in HX, HY. rewrite FloatAxioms.ltb_spec in H. rewrite FloatAxioms.leb_spec.
  unfold SFeqb, SFltb, SFleb in *.
  assert (A : forall a b, match SFcompare a b with Some _ => SFcompare b a = option_map CompOpp (SFcompare a b) | None => SFcompare a a = None \/ SFcompare b b = None end).
  { intros a b. destruct a as [[]|[]| |[] m e], b as [[]|[]| |[] m' e']; cbn; auto;
      rewrite (Z.compare_antisym e e'); destruct (e ?= e') eqn:C; cbn; try reflexivity;
      pose proof (Pos.compare_cont_antisym m m' Eq) as CA; cbn [CompOpp] in CA; first [rewrite <- CA | rewrite CA | idtac]; clear CA; destruct (Pos.compare_cont Eq m m') eqn:C'; reflexivity. }
  specialize (A (Prim2SF x) (Prim2SF y)). destruct (SFcompare (Prim2SF x) (Prim2SF y)) as [c|].
  - rewrite A. destruct c; cbn in *; congruence.
  - destruct A as [A|A]; rewrite A in *; discriminate.
Qed.
Lemma clip1_float (x : float) : let c := clip1 n0 (n_ofZ 100) x in
  n_isnan c = true \/ (n_leb n0 c = true /\ n_leb c (n_ofZ 100) = true).
Proof.
  cbv zeta. unfold clip1. destruct (n_ltb x n0) eqn:E1; [right; split; reflexivity|]. destruct (n_ltb (n_ofZ 100) x) eqn:E2; [right; split; reflexivity|].
  destruct (n_isnan x) eqn:E3; [left; reflexivity|right]. split; apply float_between; try assumption; reflexivity.
Qed.

(** ** series on the hours of consecutive days *)
Lemma same_labels_refl l : same_labels l l = true.
Proof. induction l as [|x l IH]; [reflexivity|]. cbn. rewrite Z.eqb_refl. exact IH. Qed.
Lemma series_op_same (f : xr -> xr -> xr) (g h : Z -> xr) l :
  series_op f (map (fun t => (t, g t)) l) (map (fun t => (t, h t)) l) = map (fun t => (t, f (g t) (h t))) l.
Proof.
  unfold series_op, index, values. rewrite !map_map. cbn [fst snd]. rewrite map_id, same_labels_refl, combine_maps, map_map. cbn [fst snd].
  rewrite <- (map_id l) at 1. apply combine_maps.
Qed.

Lemma hours_length d0 n : length (hours_index d0 n) = (n * 24)%nat.
Proof. unfold hours_index. rewrite grid_length. lia. Qed.
Lemma distribute_daily e d0 n (a : list xr) : length a = n -> n <> O ->
  distribute_equally e (daily d0 a) false = Ok (map (fun t => (t, at_day d0 a NaN t)) (hours_index d0 n)).
Proof. intros <- NE. apply distribute_xr. destruct a; [contradiction|discriminate]. Qed.

(** dew point of the day, distributed *)
Definition dew (a0 a1 : xr) (tmin : list xr) : list xr := map (fun x => (a0 + a1 * x)%num) tmin.
Lemma map_daily {A B} (f : A -> B) d0 (l : list A) : map (fun p => (fst p, f (snd p))) (daily d0 l) = daily d0 (map f l).
Proof. symmetry. apply daily_map. Qed.

Lemma dewpoint_plain e d0 n (tmin : list xr) (f : Z -> xr) a0 a1 kr : length tmin = n -> n <> O ->
  dewpoint_humidity saturation_x wave_x e false (daily d0 tmin) (Some (map (fun t => (t, f t)) (hours_index d0 n))) a0 a1 kr
  = Ok (map (fun t => (t, (n_ofZ 100 * saturation_x (at_day d0 (dew a0 a1 tmin) NaN t) / saturation_x (f t))%num)) (hours_index d0 n)).
Proof.
  intros L NE. unfold dewpoint_humidity. rewrite <- (daily_map (fun x => (a0 + a1 * x)%num)). fold (dew a0 a1 tmin).
  rewrite (distribute_daily e d0 n); [|unfold dew; rewrite map_length; exact L|exact NE]. cbn [bind]. rewrite !map_length, Nat.eqb_refl. cbn [negb].
  rewrite combine_maps, map_map. reflexivity.
Qed.

(** the values of the following day, the last day repeated *)
Lemma next_values (v : list xr) d0 n : length v = n -> n <> O ->
  let w := map (at_day d0 v NaN) (hours_index d0 n) in
  skipn 24 w ++ skipn (length w - 24) w = map (at_day d0 (map (next_day v) (seq 0 n)) NaN) (hours_index d0 n).
Proof.
  intros L NE w. assert (LW : length w = (n * 24)%nat) by (unfold w; rewrite map_length; apply hours_length).
  assert (NW : forall i h, (i < n)%nat -> (h < 24)%nat -> nth (i * 24 + h) w NaN = nth i v NaN).
  { intros i h Hi Hh. unfold w. rewrite (nth_indep _ NaN (at_day d0 v NaN 0)) by (rewrite map_length, hours_length; lia). rewrite map_nth.
    assert (E : nth (i * 24 + h) (hours_index d0 n) 0 = stamp (d0 + Z.of_nat i) h).
    { unfold hours_index. rewrite grid_nth by lia. unfold stamp, us_day, us_hour. lia. }
    rewrite E. apply at_day_stamp, Hh. }
  assert (NS : forall k j (l : list xr), nth j (skipn k l) NaN = nth (k + j) l NaN).
  { clear. intros k. induction k as [|k IH]; intros j l; [reflexivity|]. destruct l as [|x l]; [destruct j; reflexivity|]. apply IH. }
  apply nth_ext with (d := NaN) (d' := NaN).
  - rewrite app_length, !skipn_length, map_length, hours_length, LW. lia.
  - intros j Hj. rewrite app_length, !skipn_length, LW in Hj.
    set (i := (j / 24)%nat). set (h := (j mod 24)%nat).
    assert (EJ : j = (i * 24 + h)%nat) by (unfold i, h; pose proof (Nat.div_mod j 24 ltac:(lia)); lia).
    assert (Hh : (h < 24)%nat) by (apply Nat.mod_upper_bound; lia).
    assert (Hi : (i < n)%nat) by (apply Nat.div_lt_upper_bound; lia). clearbody i h.
    rewrite (nth_indep (map _ _) NaN (at_day d0 (map (next_day v) (seq 0 n)) NaN 0)) by (rewrite map_length, hours_length; lia). rewrite map_nth.
    assert (E : nth j (hours_index d0 n) 0 = stamp (d0 + Z.of_nat i) h).
    { unfold hours_index. rewrite grid_nth by lia. rewrite EJ. unfold stamp, us_day, us_hour. lia. }
    rewrite E, at_day_stamp by exact Hh.
    rewrite (nth_indep (map (next_day v) _) NaN (next_day v O)) by (rewrite map_length, seq_length; exact Hi). rewrite map_nth, seq_nth by exact Hi. cbn [Nat.add].
    unfold next_day. rewrite L. destruct (Nat.eqb_spec (S i) n) as [EI|EI].
    + rewrite app_nth2 by (rewrite skipn_length; lia). rewrite skipn_length, NS, LW. replace (n * 24 - 24 + (j - (n * 24 - 24)))%nat with (i * 24 + h)%nat by lia. apply NW; assumption.
    + rewrite app_nth1 by (rewrite skipn_length; lia). rewrite NS. replace (24 + j)%nat with (S i * 24 + h)%nat by lia. apply NW; [lia|exact Hh].
Qed.

Lemma dewpoint_linear e d0 n (tmin : list xr) (f : Z -> xr) a0 a1 kr : length tmin = n -> n <> O -> kr = 6 \/ kr = 12 ->
  dewpoint_humidity saturation_x wave_x e true (daily d0 tmin) (Some (map (fun t => (t, f t)) (hours_index d0 n))) a0 a1 (Some kr)
  = Ok (map (fun t => (t,
      let x := at_day d0 (dew a0 a1 tmin) NaN t in
      let y := at_day d0 (map (next_day (dew a0 a1 tmin)) (seq 0 n)) NaN t in
      let td := (x + (n_ofZ (hour_of t) / n_ofZ 24 * (y - x) + wave_x kr (hour_of t)))%num in
      (n_ofZ 100 * saturation_x td / saturation_x (f t))%num)) (hours_index d0 n)).
Proof.
  intros L NE HK. unfold dewpoint_humidity. rewrite <- (daily_map (fun x => (a0 + a1 * x)%num)). fold (dew a0 a1 tmin).
  assert (LD : length (dew a0 a1 tmin) = n) by (unfold dew; rewrite map_length; exact L).
  rewrite (distribute_daily e d0 n); [|exact LD|exact NE]. cbn [bind].
  replace (negb ((kr =? 6) || (kr =? 12))) with false by (destruct HK as [-> | ->]; reflexivity).
  rewrite !map_length, Nat.eqb_refl. cbn [negb]. unfold values, index. rewrite !map_map. cbn [fst snd].
  pose proof (next_values (dew a0 a1 tmin) d0 n LD NE) as NV. cbv zeta in NV. rewrite map_length in NV. rewrite map_length.
  change (map (fun x => at_day d0 (dew a0 a1 tmin) NaN x) (hours_index d0 n)) with (map (at_day d0 (dew a0 a1 tmin) NaN) (hours_index d0 n)).
  rewrite NV, !combine_maps. cbn [bind]. rewrite !map_length, Nat.eqb_refl. cbn [negb]. rewrite map_map.
  rewrite combine_maps, map_map. reflexivity.
Qed.

(** ** columns *)
Lemma assoc_has d name l : has_column d name l -> assoc name (f_cols d) = Some l.
Proof. intros [H _]. exact H. Qed.

Lemma raw_min_max e d d0 n hmin hmax tmin tmax (f : Z -> xr) a0 a1 kr mhp : day_frame d d0 n ->
  has_column d "hum_min" hmin -> has_column d "hum_max" hmax -> has_column d "tmin" tmin -> has_column d "tmax" tmax ->
  raw_humidity saturation_x wave_x e d "min_max" (Some (map (fun t => (t, f t)) (hours_index d0 n))) a0 a1 kr mhp
  = Ok (map (fun t => (t, (at_day d0 hmax NaN t + (f t - at_day d0 tmin NaN t) / (at_day d0 tmax NaN t - at_day d0 tmin NaN t)
                            * (at_day d0 hmin NaN t - at_day d0 hmax NaN t))%num)) (hours_index d0 n)).
Proof.
  intros F H1 H2 H3 H4. destruct (column_daily d d0 n _ _ F H1) as [E1 L1]. destruct (column_daily d d0 n _ _ F H2) as [E2 L2].
  destruct (column_daily d d0 n _ _ F H3) as [E3 L3]. destruct (column_daily d d0 n _ _ F H4) as [E4 L4]. pose proof (proj1 F) as NE.
  unfold raw_humidity. cbn [String.eqb Ascii.eqb Bool.eqb orb]. rewrite (assoc_has _ _ _ H1), (assoc_has _ _ _ H2), E1, E2, E3, E4. cbn [bind].
  rewrite !(distribute_daily e d0 n) by assumption. cbn [bind]. rewrite (series_op_same n_sub f), !(series_op_same n_sub), (series_op_same n_div), (series_op_same n_mul), (series_op_same n_add). reflexivity.
Qed.
Lemma raw_minimal e d d0 n tmin (f : Z -> xr) a0 a1 kr mhp : day_frame d d0 n -> has_column d "tmin" tmin ->
  raw_humidity saturation_x wave_x e d "minimal" (Some (map (fun t => (t, f t)) (hours_index d0 n))) a0 a1 kr mhp
  = Ok (map (fun t => (t, (n_ofZ 100 * saturation_x (at_day d0 (dew n0 n1 tmin) NaN t) / saturation_x (f t))%num)) (hours_index d0 n)).
Proof.
  intros F H. destruct (column_daily d d0 n _ _ F H) as [E L]. unfold raw_humidity. cbn [String.eqb Ascii.eqb Bool.eqb orb]. rewrite E. cbn [bind].
  apply dewpoint_plain; [exact L|exact (proj1 F)].
Qed.
Lemma raw_regression e d d0 n tmin (f : Z -> xr) a0 a1 kr mhp : day_frame d d0 n -> has_column d "tmin" tmin ->
  raw_humidity saturation_x wave_x e d "dewpoint_regression" (Some (map (fun t => (t, f t)) (hours_index d0 n))) (Some a0) (Some a1) kr mhp
  = Ok (map (fun t => (t, (n_ofZ 100 * saturation_x (at_day d0 (dew a0 a1 tmin) NaN t) / saturation_x (f t))%num)) (hours_index d0 n)).
Proof.
  intros F H. destruct (column_daily d d0 n _ _ F H) as [E L]. unfold raw_humidity. cbn [String.eqb Ascii.eqb Bool.eqb orb]. rewrite E. cbn [bind].
  apply dewpoint_plain; [exact L|exact (proj1 F)].
Qed.
Lemma raw_linear e d d0 n tmin (f : Z -> xr) a0 a1 kr mhp : day_frame d d0 n -> has_column d "tmin" tmin -> kr = 6 \/ kr = 12 ->
  raw_humidity saturation_x wave_x e d "linear_dewpoint_variation" (Some (map (fun t => (t, f t)) (hours_index d0 n))) (Some a0) (Some a1) (Some kr) mhp
  = Ok (map (fun t => (t,
      let x := at_day d0 (dew a0 a1 tmin) NaN t in
      let y := at_day d0 (map (next_day (dew a0 a1 tmin)) (seq 0 n)) NaN t in
      let td := (x + (n_ofZ (hour_of t) / n_ofZ 24 * (y - x) + wave_x kr (hour_of t)))%num in
      (n_ofZ 100 * saturation_x td / saturation_x (f t))%num)) (hours_index d0 n)).
Proof.
  intros F H K. destruct (column_daily d d0 n _ _ F H) as [E L]. unfold raw_humidity. cbn [String.eqb Ascii.eqb Bool.eqb orb]. rewrite E. cbn [bind].
  apply dewpoint_linear; [exact L|exact (proj1 F)|exact K].
Qed.
Lemma raw_equal e d d0 n hum tp a0 a1 kr mhp : day_frame d d0 n -> has_column d "hum" hum ->
  raw_humidity saturation_x wave_x e d "equal" tp a0 a1 kr mhp = Ok (map (fun t => (t, at_day d0 hum NaN t)) (hours_index d0 n)).
Proof.
  intros F H. destruct (column_daily d d0 n _ _ F H) as [E L]. unfold raw_humidity. cbn [String.eqb Ascii.eqb Bool.eqb orb]. rewrite E. cbn [bind].
  apply distribute_daily; [exact L|exact (proj1 F)].
Qed.

(** ** saturation *)
Lemma saturation_ok T : (0.53 < T)%R -> saturation_x (Fin T) = Fin (svp T).
Proof.
  intro H. unfold saturation_x. rewrite n0_xr, nofZ_xr, xadd_Fin, vapor_pressure1_Fin by exact H. f_equal. field.
Qed.
Lemma dew_identity tmin : dew n0 n1 tmin = map (fun x => (n0 + n1 * x)%num) tmin.
Proof. reflexivity. Qed.

(** ** correction of the daily mean *)
Lemma insert_label_In x y l : In y (insert_label x l) <-> y = x \/ In y l.
Proof. apply zinsert_In. Qed.
Lemma sorted_unique (l1 l2 : list Z) : StronglySorted Z.lt l1 -> StronglySorted Z.lt l2 -> (forall x, In x l1 <-> In x l2) -> l1 = l2.
Proof.
  intro S1. revert l2. induction S1 as [|a l1 S1 IH F1]; intros l2 S2 H.
  - destruct l2 as [|b l2]; [reflexivity|]. exfalso. apply (H b). left. reflexivity.
  - destruct S2 as [|b l2 S2 F2]; [exfalso; apply (H a); left; reflexivity|]. rewrite Forall_forall in F1, F2.
    assert (a = b).
    { destruct (proj1 (H a) (or_introl eq_refl)) as [E|E]; [congruence|]. destruct (proj2 (H b) (or_introl eq_refl)) as [E'|E']; [congruence|].
      specialize (F1 _ E'). specialize (F2 _ E). lia. }
    subst b. f_equal. apply IH; [exact S2|]. intro x. split; intro K.
    + destruct (proj1 (H x) (or_intror K)) as [E|E]; [subst x; specialize (F1 _ K); lia|exact E].
    + destruct (proj2 (H x) (or_intror K)) as [E|E]; [subst x; specialize (F2 _ K); lia|exact E].
Qed.
Lemma union_same l : StronglySorted Z.lt l -> union_labels l l = l.
Proof.
  intro S. apply sorted_unique; [apply (labels_sorted (l ++ l))|exact S|]. intro x. change (union_labels l l) with (labels_of (l ++ l)). rewrite labels_In, in_app_iff. tauto.
Qed.
Lemma daily_index_sorted d0 n : StronglySorted Z.lt (daily_index d0 n).
Proof.
  unfold daily_index, grid. generalize 0%nat at 1. induction n as [|n IH]; intro s; [constructor|]. cbn [seq map]. constructor; [apply IH|].
  rewrite Forall_forall. intros x Hx. apply in_map_iff in Hx as (i & <- & Hi). apply in_seq in Hi. unfold us_day. lia.
Qed.

Definition day_bias (h : series xr) (hum : list xr) (d0 : Z) (i : nat) : xr := (nanmean (values_on (d0 + Z.of_nat i) h) - nth i hum NaN)%num.
Lemma preserve_ok e d d0 n hum (h : Z -> xr) : day_frame d d0 n -> has_column d "hum" hum ->
  let s := map (fun t => (t, h t)) (hours_index d0 n) in
  preserve_mean e d s
  = Ok (map (fun t => (t, (h t - (let b := at_day d0 (map (day_bias s hum d0) (seq 0 n)) NaN t in if n_isnan b then n0 else b))%num)) (hours_index d0 n)).
Proof.
  intros F H s. destruct (column_daily d d0 n _ _ F H) as [E L]. unfold preserve_mean. rewrite E. cbn [bind].
  assert (ES : map fst s = hours_index d0 n) by (unfold s; rewrite map_map; apply map_id).
  rewrite (resample_daily nanmean d0 n s ES). unfold index. rewrite !daily_fst, L, map_length, seq_length, union_same by apply daily_index_sorted.
  assert (ED : map (fun t => (t, (match lookup t (daily d0 (map (fun i => nanmean (values_on (d0 + Z.of_nat i) s)) (seq 0 n))) with Some v => v | None => n_nan end
                   - match lookup t (daily d0 hum) with Some v => v | None => n_nan end)%num)) (daily_index d0 n)
               = daily d0 (map (day_bias s hum d0) (seq 0 n))).
  { rewrite (daily_seq (day_bias s hum d0)). unfold daily_index, grid. rewrite map_map. apply map_ext_in. intros i Hi. apply in_seq in Hi.
    replace (d0 * us_day + Z.of_nat i * us_day) with ((d0 + Z.of_nat i) * us_day) by ring. f_equal. unfold day_bias. rewrite !lookup_daily, (nth_error_nth' hum i NaN) by lia.
    set (F' := fun i0 => nanmean (values_on (d0 + Z.of_nat i0) s)). rewrite (nth_error_nth' (map F' (seq 0 n)) i NaN) by (rewrite map_length, seq_length; lia).
    rewrite (nth_indep _ NaN (F' O)) by (rewrite map_length, seq_length; lia). rewrite (map_nth F'), seq_nth by lia. reflexivity. }
  rewrite ED. rewrite (distribute_daily e d0 n); [|rewrite map_length; apply seq_length|exact (proj1 F)]. cbn [bind].
  set (B := map (day_bias s hum d0) (seq 0 n)). clearbody B. clear ED ES. unfold s. clear s. rewrite !map_map. cbn [fst snd].
  f_equal. apply map_ext_in. intros t Ht. f_equal. f_equal.
  assert (LK : forall (g : Z -> xr) l, In t l -> lookup t (map (fun x => (x, g x)) l) = Some (g t)).
  { clear. intros g l. induction l as [|u l IH]; intro K; [destruct K|]. cbn [map lookup]. destruct (Z.eqb_spec u t) as [->|N]; [reflexivity|]. apply IH. destruct K; [contradiction|assumption]. }
  rewrite (LK (fun x => if n_isnan (at_day d0 B NaN x) then n0 else at_day d0 B NaN x)) by exact Ht. reflexivity.
Qed.
