(** Property C117: potential radiation supplied by the user, for hours of its own. *)
From Coq Require Import String ZArith List Bool Reals Sorted Lia Lra.
From Verif Require Import Py Num Cal Series Frame UtilModel UtilModel2 Trans TempModel RadModel HumModel HumProofs SpecBase SpecUtil SpecTemp SpecRad TimeProofs IndexProofs
  DaysProofs SunProofs CourseProofs TempProofs TempCourse RadProofs RadBC PropsRad InterpProofs AggModel BuildProofs StationModel SpecStation StationProofs StationDaily PropsStation PropsStation2.
Import ListNotations.
Open Scope Z_scope.

(** the daily value valid at time t: that of the day, after the last day that of the last day *)
Definition carried (d0 : Z) (gl : list xr) (t : Z) : xr :=
  if date_of t <? d0 then NaN else nth (Nat.min (Z.to_nat (date_of t - d0)) (length gl - 1)) gl NaN.

Lemma ffill_grid {A} {N : Num A} (f : Z -> A) step m : 0 < step -> forall a t acc,
  lookup_ffill t (map (fun u => (u, f u)) (grid a step (S m))) acc
  = if t <? a then acc else f (a + Z.min ((t - a) / step) (Z.of_nat m) * step).
Proof.
  intro P. induction m as [|m IH]; intros a t acc.
  - cbn [grid seq map lookup_ffill]. replace (a + Z.of_nat 0 * step) with a by lia. destruct (Z.ltb_spec t a) as [L|G], (Z.leb_spec a t); try lia; [reflexivity|].
    assert (0 <= (t - a) / step) by (apply Z.div_pos; lia). f_equal. lia.
  - rewrite grid_S. cbn [map]. cbn [lookup_ffill]. rewrite IH. destruct (Z.ltb_spec t a) as [L|G], (Z.leb_spec a t); try lia; [reflexivity|].
    assert (Q : (t - (a + step)) / step = (t - a) / step - 1).
    { replace (t - (a + step)) with (t - a + (-1) * step) by lia. rewrite Z.div_add by lia. lia. }
    destruct (Z.ltb_spec t (a + step)) as [L|G2].
    + rewrite Z.div_small by lia. f_equal. lia.
    + rewrite Q. f_equal. nia.
Qed.
Lemma ffill_resample (agg : list xr -> xr) (s : series xr) t acc : In t (map fst s) ->
  lookup_ffill t (resample us_day agg s) acc = agg (values_on (date_of t) s).
Proof.
  intro H. unfold resample, index. destruct (idx_min_le _ _ H) as (a & -> & Ha). destruct (idx_max_ge _ _ H) as (b & -> & Hb).
  assert (A : a / us_day <= t / us_day) by (apply Z.div_le_mono; [reflexivity|exact Ha]).
  assert (B : t / us_day <= b / us_day) by (apply Z.div_le_mono; [reflexivity|exact Hb]).
  rewrite date_range_grid by (unfold us_day in *; lia).
  replace (b / us_day * us_day - a / us_day * us_day) with ((b / us_day - a / us_day) * us_day) by lia. rewrite Z.div_mul by discriminate.
  set (m := Z.to_nat (b / us_day - a / us_day)). replace (Z.to_nat (b / us_day - a / us_day + 1)) with (S m) by (unfold m; lia).
  rewrite (ffill_grid (fun u => agg (map snd (filter (fun p => fst p / us_day * us_day =? u) s)))) by reflexivity.
  pose proof (Z.div_mod t us_day ltac:(discriminate)) as DM. pose proof (Z.mod_pos_bound t us_day ltac:(reflexivity)) as MB.
  assert (D : (t - a / us_day * us_day) / us_day = t / us_day - a / us_day).
  { replace (t - a / us_day * us_day) with (t + (- (a / us_day)) * us_day) by lia. rewrite Z.div_add by discriminate. lia. }
  rewrite D. destruct (Z.ltb_spec t (a / us_day * us_day)) as [L|_]; [unfold us_day in *; lia|].
  replace (a / us_day * us_day + Z.min (t / us_day - a / us_day) (Z.of_nat m) * us_day) with (date_of t * us_day).
  2:{ unfold m, date_of. rewrite Z2Nat.id by lia. rewrite Z.min_l by lia. lia. }
  f_equal. unfold values_on. f_equal. apply filter_ext. intros p.
  destruct (Z.eqb_spec (fst p / us_day) (date_of t)) as [->|NE]; [apply Z.eqb_refl|].
  apply Z.eqb_neq. intro E. apply NE. apply Z.mul_reg_r in E; [exact E|discriminate].
Qed.
Lemma ffill_carried d0 gl t : gl <> [] -> lookup_ffill t (daily d0 gl) NaN = carried d0 gl t.
Proof.
  intro NE. destruct gl as [|g0 r] eqn:E; [congruence|]. rewrite <- E in *. set (n := length gl).
  assert (M : daily d0 gl = map (fun u => (u, nth (Z.to_nat (date_of u - d0)) gl NaN)) (grid (d0 * us_day) us_day (S (length r)))).
  { assert (L : length gl = S (length r)) by (rewrite E; reflexivity). rewrite <- L.
    assert (X : gl = map (fun i => nth i gl NaN) (seq 0 (length gl))) by apply list_seq.
    rewrite X at 1. rewrite daily_seq. unfold grid. rewrite map_map. apply map_ext_in. intros i _.
    replace (d0 * us_day + Z.of_nat i * us_day) with ((d0 + Z.of_nat i) * us_day) by lia. f_equal.
    unfold date_of. rewrite Z.div_mul by discriminate. f_equal. lia. }
  rewrite M, (ffill_grid (fun u => nth (Z.to_nat (date_of u - d0)) gl NaN)) by reflexivity.
  pose proof (Z.div_mod t us_day ltac:(discriminate)) as DM. pose proof (Z.mod_pos_bound t us_day ltac:(reflexivity)) as MB.
  assert (D : (t - d0 * us_day) / us_day = date_of t - d0).
  { replace (t - d0 * us_day) with (t + (- d0) * us_day) by lia. rewrite Z.div_add by discriminate. unfold date_of. lia. }
  rewrite D. unfold carried. unfold date_of in *. destruct (Z.ltb_spec t (d0 * us_day)) as [L|G], (Z.ltb_spec (t / us_day) d0) as [L2|G2]; try (unfold us_day in *; lia); [reflexivity|].
  replace (d0 * us_day + Z.min (t / us_day - d0) (Z.of_nat (length r)) * us_day) with ((d0 + Z.min (t / us_day - d0) (Z.of_nat (length r))) * us_day) by lia.
  rewrite Z.div_mul by discriminate. f_equal. assert (L : length gl = S (length r)) by (rewrite E; reflexivity). lia.
Qed.

(** one value of the result *)
Definition scaled_at (pot : series xr) (d0 : Z) (gl : list xr) (p : Z * xr) : xr :=
  cut (snd p / nanmean (values_on (date_of (fst p)) pot) * carried d0 gl (fst p))%num.
Lemma rad_any e d d0 n gl st pot ps1 ps2 mc : day_frame d d0 n -> has_column d "glob" gl ->
  disaggregate_radiation e d st (Some pot) "pot_rad" ps1 ps2 mc = Ok (map (fun p => (fst p, scaled_at pot d0 gl p)) pot).
Proof.
  intros F C. rewrite (rad_pot e d d0 n gl st pot ps1 ps2 mc F C). f_equal. unfold scale. apply map_ext_in. intros p Hp. f_equal. unfold scaled_at.
  rewrite ffill_resample by (apply in_map, Hp). rewrite ffill_carried; [reflexivity|]. destruct F as [N0 F1]. destruct C as [_ L]. intros ->. rewrite F1 in L.
  unfold daily_index in L. rewrite grid_length in L. cbn in L. congruence.
Qed.
Lemma cut_nan : cut NaN = NaN.
Proof. reflexivity. Qed.
Lemma scaled_at_fin pot d0 gl t x p g : values_on (date_of t) pot = map Fin p -> (Rmean p <> 0)%R -> carried d0 gl t = Fin g ->
  scaled_at pot d0 gl (t, Fin x) = Fin (cut_R (x / Rmean p * g)).
Proof.
  intros V M G. unfold scaled_at. cbn [fst snd]. rewrite V, G. rewrite nanmean_numeric by (apply numeric_Fin || (rewrite fins_Fin; apply Rmean_pos_nonempty, M)). rewrite fins_Fin.
  rewrite xdiv_Fin by exact M. rewrite xmul_Fin. apply cut_xr.
Qed.
Lemma times_nan (x : xr) : (x * NaN)%num = NaN.
Proof. destruct x; reflexivity. Qed.

(** the function: the result has the labels of the potential radiation, not those of the days *)
Theorem C117_labels e d d0 n gl st pot ps1 ps2 mc : SpecRad.day_frame d d0 n -> has_column d "glob" gl ->
  exists out, disaggregate_radiation e d st (Some pot) "pot_rad" ps1 ps2 mc = Ok out /\ map fst out = map fst pot /\
    (forall k t x p g, nth_error pot k = Some (t, Fin x) -> values_on (date_of t) pot = map Fin p -> Rmean p <> 0%R -> carried d0 gl t = Fin g ->
       nth_error out k = Some (t, Fin (cut_R (x / Rmean p * g)))) /\
    (forall k t x, nth_error pot k = Some (t, x) -> date_of t < d0 -> nth_error out k = Some (t, NaN)).
Proof.
  intros F C. eexists. split; [apply (rad_any e d d0 n gl st pot ps1 ps2 mc F C)|]. split; [rewrite map_map; reflexivity|]. split.
  - intros k t x p g K V M G. rewrite (map_nth_error _ k pot K). cbn [fst]. rewrite (scaled_at_fin pot d0 gl t x p g V M G). reflexivity.
  - intros k t x K L. rewrite (map_nth_error _ k pot K). cbn [fst]. unfold scaled_at. cbn [fst snd]. unfold carried. apply Z.ltb_lt in L. rewrite L, times_nan. reflexivity.
Qed.
Print Assumptions C117_labels.
(** deviation: beyond the last day the last daily value is used again *)
Theorem C117_after_the_end e d d0 n gl g st pot ps1 ps2 mc k t x p : SpecRad.day_frame d d0 n -> has_column d "glob" gl -> nth_error gl (n - 1) = Some (Fin g) ->
  nth_error pot k = Some (t, Fin x) -> d0 + Z.of_nat n <= date_of t -> values_on (date_of t) pot = map Fin p -> Rmean p <> 0%R ->
  exists out, disaggregate_radiation e d st (Some pot) "pot_rad" ps1 ps2 mc = Ok out /\ nth_error out k = Some (t, Fin (cut_R (x / Rmean p * g))).
Proof.
  intros F C G K D V M. destruct (C117_labels e d d0 n gl st pot ps1 ps2 mc F C) as (out & E & _ & H & _). exists out. split; [exact E|].
  apply (H k t x p g K V M). unfold carried. destruct (Z.ltb_spec (date_of t) d0) as [L|_]; [lia|].
  assert (L : length gl = n) by (destruct F as [_ F]; destruct C as [_ C]; rewrite C, F; unfold daily_index; apply grid_length).
  rewrite L. replace (Nat.min (Z.to_nat (date_of t - d0)) (n - 1)) with (n - 1)%nat by lia. apply nth_error_nth, G.
Qed.
Print Assumptions C117_after_the_end.

(** ** At a station *)
Lemma put_series_any st d0 n dd name s : ready st d0 n dd -> In name hourly_names -> NoDup (map fst s) ->
  exists st', put_series name s st = (st', None) /\ ready st' d0 n dd /\
    (forall i, (i < n)%nat -> hourly_on st' name (d0 + Z.of_nat i) = map (fun h => match entry_of (stamp (d0 + Z.of_nat i) h) s with Some v => v | None => NaN end) (seq 0 24)) /\
    (forall c, c <> name -> hourly_column st' c = hourly_column st c) /\ s_sun st' = s_sun st.
Proof.
  intros (N0 & E1 & E2 & d & E3 & E4 & E5) IN ND. unfold put_series. rewrite E3.
  assert (V : same_labels (index s) (f_index d) = true -> values s = align s (f_index d)).
  { intro S. apply same_labels_true in S. rewrite <- S. transitivity (align (combine (index s) (values s)) (index s)); [|rewrite combine_parts; reflexivity]. rewrite align_rows. symmetry. apply rows_self; [exact ND|].
    unfold values, index. rewrite !map_length. reflexivity. }
  assert (R : exists st', (if same_labels (index s) (f_index d) then (with_disagg st (Some (put_column name (values s) d)), None)
     else if has_dup (index s) then (st, Some ValueError) else (with_disagg st (Some (put_column name (align s (f_index d)) d)), None)) = (st', None)
     /\ st' = with_disagg st (Some (put_column name (align s (f_index d)) d))).
  { destruct (same_labels (index s) (f_index d)).
    - rewrite (V eq_refl). eexists. split; reflexivity.
    - destruct (has_dup (index s)) eqn:HD; [|eexists; split; reflexivity]. exfalso. apply (proj2 (has_dup_NoDup (index s))) in ND. congruence. }
  destruct R as (st' & R & ->). eexists. split; [exact R|]. unfold ready, hourly_column, hourly_on. cbn [with_disagg s_daily s_disagg s_sun]. rewrite E3.
  split; [split; [exact N0|]; split; [exact E1|]; split; [exact E2|]; eexists; split; [reflexivity|]; split; [exact E4|rewrite put_names; exact E5]|].
  rewrite put_assoc by (rewrite E5; exact IN). split; [|split; [|reflexivity]].
  - intros i Hi. cbn [put_column f_index]. rewrite E4. unfold align.
    assert (X : forall (l : list Z) (f : Z -> xr), combine l (map f l) = map (fun t => (t, f t)) l) by (induction l as [|a l IH]; intro f; [reflexivity|]; cbn; f_equal; apply IH).
    rewrite X, (values_on_map_hours _ d0 n i Hi). apply map_ext. intro h. reflexivity.
  - intros c NC. apply put_column_ok, NC.
Qed.
Lemma radiation_given e q st d0 n dd gl pot : ready st d0 n dd -> s_sun st <> None -> has_column dd "glob" gl ->
  st_radiation e q st "pot_rad" (Some pot) = put_series "glob" (map (fun p => (fst p, scaled_at pot d0 gl p)) pot) st.
Proof.
  intros RD S C. assert (F : SpecRad.day_frame dd d0 n) by (split; apply RD). unfold st_radiation. destruct (s_sun st) as [sn|] eqn:ES; [|congruence].
  cbn [bind]. unfold daily_frame. destruct RD as (_ & DD & _). rewrite DD. cbn [bind]. rewrite ES.
  rewrite (rad_any e dd d0 n gl _ pot _ _ _ F C). reflexivity.
Qed.
Lemma entry_map2 {A B} (f : Z * A -> B) k l : entry_of k (map (fun p => (fst p, f p)) l) = match entry_of k l with Some v => Some (f (k, v)) | None => None end.
Proof. induction l as [|[x v] l IH]; [reflexivity|]. cbn. destruct (Z.eqb_spec x k) as [->|]; [reflexivity|exact IH]. Qed.

(** hour by hour: no value where the supplied series has none, else its value scaled with its own mean of the day *)
Theorem C117_station e q st d0 n dd gl (pot : series xr) : ready st d0 n dd -> s_sun st <> None -> has_column dd "glob" gl -> NoDup (map fst pot) ->
  exists st', st_radiation e q st "pot_rad" (Some pot) = (st', None) /\ ready st' d0 n dd /\ (forall c, c <> "glob"%string -> hourly_column st' c = hourly_column st c) /\
    forall i h, (i < n)%nat -> (h < 24)%nat -> let day := d0 + Z.of_nat i in
      (entry_of (stamp day h) pot = None -> nth_error (hourly_on st' "glob" day) h = Some NaN) /\
      (forall x p g, entry_of (stamp day h) pot = Some (Fin x) -> values_on day pot = map Fin p -> Rmean p <> 0%R -> nth_error gl i = Some (Fin g) ->
         nth_error (hourly_on st' "glob" day) h = Some (Fin (cut_R (x / Rmean p * g)))).
Proof.
  intros RD S C ND. rewrite (radiation_given e q st d0 n dd gl pot RD S C).
  destruct (put_series_any st d0 n dd "glob" (map (fun p => (fst p, scaled_at pot d0 gl p)) pot) RD) as (st' & E1 & E2 & E3 & E4 & _); [cbn; tauto|rewrite map_map; exact ND|].
  exists st'. split; [exact E1|]. split; [exact E2|]. split; [exact E4|]. intros i h Hi Hh day. unfold day. rewrite (E3 i Hi).
  rewrite (map_nth_error _ h (seq 0 24) (d := h)) by (rewrite nth_error_nth' with (d := O) by (rewrite seq_length; exact Hh); rewrite seq_nth by exact Hh; reflexivity).
  rewrite entry_map2. split; [intros ->; reflexivity|]. intros x p g -> V M G. f_equal. apply scaled_at_fin; [rewrite stamp_date by exact Hh; exact V|exact M|].
  unfold carried. rewrite stamp_date by exact Hh. destruct (Z.ltb_spec (d0 + Z.of_nat i) d0) as [L|_]; [lia|].
  assert (L : length gl = n) by (destruct RD as (_ & _ & F & _); destruct C as [_ C]; rewrite C, F; unfold daily_index; apply grid_length).
  replace (Nat.min (Z.to_nat (d0 + Z.of_nat i - d0)) (length gl - 1)) with i by lia. apply nth_error_nth, G.
Qed.
Print Assumptions C117_station.
(** repeated labels are refused, nothing changes *)
Theorem C117_repeated_labels e q st d0 n dd gl (pot : series xr) : ready st d0 n dd -> s_sun st <> None -> has_column dd "glob" gl -> ~ NoDup (map fst pot) ->
  st_radiation e q st "pot_rad" (Some pot) = (st, Some ValueError).
Proof.
  intros RD S C ND. rewrite (radiation_given e q st d0 n dd gl pot RD S C). destruct RD as (N0 & _ & _ & d & E3 & E4 & _). unfold put_series. rewrite E3.
  assert (I : index (map (fun p => (fst p, scaled_at pot d0 gl p)) pot) = map fst pot) by (unfold index; rewrite map_map; reflexivity). rewrite I.
  destruct (same_labels (map fst pot) (f_index d)) eqn:SL.
  - exfalso. apply same_labels_true in SL. apply ND. rewrite SL, E4. apply sorted_NoDup. unfold hours_index. apply grid_sorted. reflexivity.
  - destruct (has_dup (map fst pot)) eqn:HD; [reflexivity|]. exfalso. apply ND. apply has_dup_NoDup. exact HD.
Qed.
Print Assumptions C117_repeated_labels.

(** supplied for some of the full hours of a day: these hours share the daily value among them *)
Lemma valid_split (G : Z -> xr) (P : Z -> bool) l : (forall t, In t l -> P t = true -> n_isnan (G t) = false) -> (forall t, In t l -> P t = false -> n_isnan (G t) = true) ->
  valid (map G l) = map G (filter P l).
Proof.
  intros A B. induction l as [|t l IH]; [reflexivity|]. unfold valid in *. cbn [map filter]. rewrite IH by (intros u Hu; first [apply A|apply B]; right; exact Hu).
  destruct (P t) eqn:E; [rewrite (A t (or_introl eq_refl) E)|rewrite (B t (or_introl eq_refl) E)]; reflexivity.
Qed.
Lemma day_stamps day : map (stamp day) (seq 0 24) = grid (day * us_day) us_hour 24.
Proof. unfold grid. apply map_ext. intro h. unfold stamp. lia. Qed.
Theorem C117_covered_hours e q st d0 n dd gl (pot : series xr) : ready st d0 n dd -> s_sun st <> None -> has_column dd "glob" gl -> StronglySorted Z.lt (map fst pot) ->
  exists st', st_radiation e q st "pot_rad" (Some pot) = (st', None) /\
    forall i p g, let day := d0 + Z.of_nat i in
      (forall t, In t (map fst pot) -> date_of t = day -> exists h, (h < 24)%nat /\ t = stamp day h) ->
      values_on day pot = map Fin p -> (forall x, In x p -> (0 <= x)%R) -> (0 < Rmean p)%R -> nth_error gl i = Some (Fin g) -> (0 <= g)%R ->
      exists vals, valid (hourly_on st' "glob" day) = map Fin vals /\ shaped p g vals.
Proof.
  intros RD S C SS. assert (ND : NoDup (map fst pot)) by (apply sorted_NoDup, SS).
  destruct (put_series_any st d0 n dd "glob" (map (fun p => (fst p, scaled_at pot d0 gl p)) pot) RD) as (st' & E1 & E2 & E3 & E4 & _); [cbn; tauto|rewrite map_map; exact ND|].
  exists st'. split; [rewrite (radiation_given e q st d0 n dd gl pot RD S C); exact E1|]. intros i p g day FH V P0 M G G0.
  assert (L : length gl = n) by (destruct RD as (_ & _ & F & _); destruct C as [_ C]; rewrite C, F; unfold daily_index; apply grid_length).
  assert (Hi : (i < n)%nat) by (rewrite <- L; apply nth_error_Some; congruence).
  exists (scaled p g). split; [|apply scaled_shaped; assumption].
  change (hourly_on st' "glob" day) with (hourly_on st' "glob" (d0 + Z.of_nat i)). rewrite (E3 i Hi). fold day.
  set (F := fun t => match entry_of t (map (fun p => (fst p, scaled_at pot d0 gl p)) pot) with Some v => v | None => NaN end).
  change (valid (map (fun h => F (stamp day h)) (seq 0 24)) = map Fin (scaled p g)). rewrite <- (map_map (stamp day) F), day_stamps.
  set (rows := filter (fun r => fst r / us_day =? day) pot). assert (V' : map snd rows = map Fin p) by exact V.
  assert (CR : forall t, date_of t = day -> carried d0 gl t = Fin g).
  { intros t D. unfold carried. rewrite D. unfold day. destruct (Z.ltb_spec (d0 + Z.of_nat i) d0) as [X|_]; [lia|].
    replace (Nat.min (Z.to_nat (d0 + Z.of_nat i - d0)) (length gl - 1)) with i by lia. apply nth_error_nth, G. }
  assert (VF : forall t x, In (t, x) rows -> exists r, x = Fin r /\ In r p /\ F t = Fin (cut_R (r / Rmean p * g))).
  { intros t x I. assert (IX : In x (map Fin p)) by (rewrite <- V'; apply (in_map snd) in I; exact I). apply in_map_iff in IX as (r & <- & IR). exists r. split; [reflexivity|]. split; [exact IR|].
    apply filter_In in I as [I D]. cbn [fst] in D. apply Z.eqb_eq in D. unfold F. rewrite entry_map2.
    replace (entry_of t pot) with (Some (Fin r)).
    2:{ symmetry. rewrite entry_lookup. apply lookup_In; [exact ND|exact I]. }
    apply scaled_at_fin; [unfold date_of; rewrite D; exact V|lra|apply CR; exact D]. }
  assert (RG : filter (fun t => mem t (map fst rows)) (grid (day * us_day) us_hour 24) = map fst rows).
  { apply sorted_same.
    - apply sorted_filter, grid_sorted. reflexivity.
    - clear - SS. unfold rows. induction pot as [|[t x] r IH]; [constructor|]. cbn [map fst] in SS. apply StronglySorted_inv in SS as [SS FA]. cbn [filter fst].
      destruct (t / us_day =? day); [|apply IH, SS]. cbn [map fst]. constructor; [apply IH, SS|]. rewrite Forall_forall in *. intros u Hu.
      apply FA. apply in_map_iff in Hu as (y & <- & Hy). apply in_map. apply filter_In in Hy. apply Hy.
    - intro t. rewrite filter_In, mem_In. split; [tauto|]. intro I. split; [|exact I]. apply in_map_iff in I as ((u & x) & EU & I). cbn in EU. subst u.
      apply filter_In in I as [I D]. cbn [fst] in D. apply Z.eqb_eq in D. destruct (FH t) as (h & Hh & ->); [apply (in_map fst) in I; exact I|exact D|].
      rewrite <- day_stamps. apply in_map. apply in_seq. lia. }
  rewrite (valid_split F (fun t => mem t (map fst rows))).
  - rewrite RG, map_map. unfold scaled. rewrite map_map.
    assert (X : forall (rs : series xr) ps, (forall t x, In (t, x) rs -> exists r, x = Fin r /\ In r p /\ F t = Fin (cut_R (r / Rmean p * g))) -> map snd rs = map Fin ps ->
      map (fun r => F (fst r)) rs = map (fun x => Fin (cut_R (x / Rmean p * g))) ps).
    { induction rs as [|[t x] rs IH]; intros [|y ps] A B; try discriminate; [reflexivity|]. cbn [map snd fst] in *. injection B as B1 B2.
      destruct (A t x (or_introl eq_refl)) as (r & R1 & _ & R2). f_equal; [rewrite R2; congruence|]. apply IH; [|exact B2]. intros u z I. apply A. right. exact I. }
    apply X; [exact VF|exact V'].
  - intros t _ I. apply mem_In, in_map_iff in I as ((u & x) & EU & I). cbn in EU. subst u. destruct (VF t x I) as (r & _ & _ & ->). reflexivity.
  - intros t I N. unfold F. rewrite entry_map2. destruct (entry_of t pot) as [x|] eqn:EX; [|reflexivity]. exfalso.
    rewrite entry_lookup in EX. apply lookup_In in EX; [|exact ND]. apply not_true_iff_false in N. apply N. apply mem_In. apply (in_map fst (_ : list (Z * xr)) (t, x)).
    apply filter_In. split; [exact EX|]. cbn [fst]. apply Z.eqb_eq. rewrite <- day_stamps in I. apply in_map_iff in I as (h & <- & Hh). apply in_seq in Hh. apply stamp_date. lia.
Qed.
Print Assumptions C117_covered_hours.
Definition pot_station : station :=
  {| s_lon := None; s_lat := None; s_tz := None; s_stats := O; s_daily := Some (Build_dframe (daily_index 0 1) [("glob"%string, [Fin 100])]);
     s_disagg := Some (empty_hourly (hours_index 0 1)); s_sun := Some [] |}.
(** two hours of the day and one of the next *)
Definition pot_two : series xr := [(stamp 0 10, Fin 3); (stamp 0 12, Fin 1); (stamp 1 12, Fin 7)].
Example C117_met q : ready pot_station 0 1 (Build_dframe (daily_index 0 1) [("glob"%string, [Fin 100])]) /\
  exists st' vals, st_radiation modern q pot_station "pot_rad" (Some pot_two) = (st', None) /\
    valid (hourly_on st' "glob" 0) = map Fin vals /\ shaped [3; 1]%R 100 vals /\ nth_error (hourly_on st' "glob" 0) 10 = Some (Fin 150) /\ nth_error (hourly_on st' "glob" 0) 11 = Some NaN.
Proof.
  assert (RD : ready pot_station 0 1 (Build_dframe (daily_index 0 1) [("glob"%string, [Fin 100])])).
  { split; [discriminate|]. split; [reflexivity|]. split; [reflexivity|]. eexists. split; [reflexivity|]. split; reflexivity. }
  assert (C : has_column (Build_dframe (daily_index 0 1) [("glob"%string, [Fin 100])]) "glob" [Fin 100]) by (split; reflexivity).
  assert (S : s_sun pot_station <> None) by discriminate.
  assert (SS : StronglySorted Z.lt (map fst pot_two)) by (repeat constructor; unfold stamp, us_day, us_hour; cbn; lia).
  assert (M : Rmean [3; 1]%R = 2%R) by (unfold Rmean, Rsum; cbn; lra).
  split; [exact RD|].
  destruct (C117_covered_hours modern q _ _ _ _ _ pot_two RD S C SS) as (st' & E & H).
  destruct (H O [3; 1]%R 100%R) as (vals & V & SH); try reflexivity; try lra.
  - intros t I D. cbn in I. destruct I as [<-|[<-|[<-|[]]]]; [exists 10%nat|exists 12%nat|discriminate D]; split; try lia; reflexivity.
  - intros x [<-|[<-|[]]]; lra.
  - exists st', vals. split; [exact E|]. split; [exact V|]. split; [exact SH|].
    destruct (C117_station modern q _ _ _ _ _ pot_two RD S C (sorted_NoDup _ SS)) as (st2 & E2 & _ & _ & H2). rewrite E in E2. injection E2 as <-.
    split.
    + destruct (H2 O 10%nat ltac:(lia) ltac:(lia)) as [_ X]. change 0 with (0 + Z.of_nat 0) at 1. refine (eq_trans (X 3%R [3; 1]%R 100%R eq_refl eq_refl ltac:(lra) eq_refl) _). do 2 f_equal. rewrite M. unfold cut_R. destruct (Rlt_dec _ _); lra.
    + destruct (H2 O 11%nat ltac:(lia) ltac:(lia)) as [X _]. apply X. reflexivity.
Qed.
