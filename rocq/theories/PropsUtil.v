(** Properties C26-C33, C66, C70: gaps, full days, daily aggregation, mean courses, vapour
    pressure, dew point, sun times, interpolation. *)
From Coq Require Import String ZArith List Bool Lia Reals Lra Sorted.
From Verif Require Import Py Num Cal Series UtilModel UtilModel2 InterpModel Trans SpecBase SpecUtil SpecInterp TimeProofs IndexProofs
  EqualProofs UtilProofs DaysProofs InterpProofs ThermoProofs SunProofs CourseProofs.
Import ListNotations.
Open Scope Z_scope.

(** ** C26 *)
Theorem C26_count e step print_all print_max verbose idx : has_timedelta_delta e = true ->
  exists out, detect_gaps e step print_all print_max verbose idx = Ok (irregular step idx, out).
Proof. apply detect_gaps_count. Qed.
Print Assumptions C26_count.
Theorem C26_zero_iff_equidistant step t rest :
  irregular step (t :: rest) = 0 <-> t :: rest = grid t step (S (length rest)).
Proof. apply irregular_zero. Qed.
Print Assumptions C26_zero_iff_equidistant.
Theorem C26_current_pandas e step print_all print_max verbose a b rest : has_timedelta_delta e = false ->
  detect_gaps e step print_all print_max verbose (a :: b :: rest) = Err AttributeError.
Proof. apply detect_gaps_error. Qed.
Print Assumptions C26_current_pandas.
Example C26_met : detect_gaps legacy us_hour false 5 false [0; us_hour; 3 * us_hour; 4 * us_hour; 9 * us_hour] = Ok (2, []).
Proof. reflexivity. Qed.

(** ** C70 *)
Theorem C70_listing e step print_all print_max idx : has_timedelta_delta e = true -> 1 <= print_max ->
  exists out, detect_gaps e step print_all print_max true idx = Ok (irregular step idx, out) /\
    listed out = (if print_all then irregular step idx else Z.min (irregular step idx) print_max) /\
    (claims_incomplete out = true <-> print_max <= irregular step idx).
Proof.
  intros HE HM. destruct idx as [|t r].
  - exists [Total 0]. split; [reflexivity|]. cbn [irregular]. split; [destruct print_all; unfold listed; cbn; lia|]. cbn. split; [discriminate|lia].
  - destruct (gaps_loop_ok e step print_all print_max HE r t 0 0 false []) as (out & E & L & C).
    exists out. cbn [detect_gaps]. rewrite E. split; [reflexivity|]. split.
    + rewrite L. change (listed []) with 0. pose proof (irregular_nonneg step (t :: r)). destruct print_all; lia.
    + rewrite C by (try reflexivity; left; lia). rewrite orb_false_r, Z.leb_le. cbn. reflexivity.
Qed.
Print Assumptions C70_listing.
(** all gaps are listed, and the message still says that only the first ones are *)
Theorem C70_misleading_refuted :
  exists out, detect_gaps legacy us_hour true 5 true [0; 2*us_hour; 4*us_hour; 6*us_hour; 8*us_hour; 10*us_hour; 12*us_hour] = Ok (6, out) /\
    listed out = 6 /\ claims_incomplete out = true.
Proof. eexists. split; [reflexivity|]. split; reflexivity. Qed.
Print Assumptions C70_misleading_refuted.

(** ** C27 *)
Lemma nth_last {A} (l : list A) d : (0 < length l)%nat -> nth (length l - 1) l d = last l d.
Proof.
  induction l as [|x [|y l] IH]; cbn [length]; intro H; [lia|reflexivity|].
  cbn [length] in IH. replace (S (S (length l)) - 1)%nat with (S (S (length l) - 1)) by lia.
  change (last (x :: y :: l) d) with (last (y :: l) d). rewrite <- IH by lia. reflexivity.
Qed.
Theorem C27_block {A} shift (s : list (Z * A)) i j d : 0 <= shift <= 23 -> StronglySorted Z.lt (map fst s) ->
  (i < j < length s)%nat -> full_hour shift (fst (nth i s d)) -> full_hour ((shift + 23) mod 24) (fst (nth j s d)) ->
  exists pre post, s = pre ++ drop_incomplete_days shift s ++ post /\
    full_hour shift (fst (hd d (drop_incomplete_days shift s))) /\
    full_hour ((shift + 23) mod 24) (fst (last (drop_incomplete_days shift s) d)) /\
    Forall (fun p => ~ full_hour shift (fst p)) pre /\
    Forall (fun p => ~ full_hour ((shift + 23) mod 24) (fst p)) post.
Proof.
  intros HS SS Hij Hi Hj. rewrite drop_block by exact SS.
  assert (ES : eff_shift shift = shift).
  { unfold eff_shift. destruct (Z.ltb_spec 23 shift), (Z.ltb_spec shift 0); cbn [orb]; lia. }
  rewrite ES. set (la := (shift + 23) mod 24) in *. set (idx := map fst s) in *.
  assert (LI : length idx = length s) by apply map_length.
  assert (AT : forall h t, at_hour h t = true <-> full_hour h t).
  { intros h t. unfold at_hour, full_hour. rewrite andb_true_iff, !Z.eqb_eq. reflexivity. }
  assert (NI : forall k, nth k idx (fst d) = fst (nth k s d)) by (intro k; unfold idx; apply map_nth).
  set (a := first_pos (at_hour shift) idx). set (b := last_pos (at_hour la) idx).
  assert (Ha : (a <= i)%nat).
  { destruct (Nat.le_gt_cases a i) as [|G]; [assumption|]. pose proof (first_pos_before (at_hour shift) (fst d) idx i G) as Q.
    rewrite NI in Q. apply AT in Hi. congruence. }
  assert (Hb : (j <= b)%nat).
  { destruct (Nat.le_gt_cases j b) as [|G]; [assumption|]. pose proof (last_pos_after (at_hour la) (fst d) idx j G ltac:(lia)) as Q.
    rewrite NI in Q. apply AT in Hj. congruence. }
  assert (Hbl : (b < length s)%nat).
  { rewrite <- LI. apply last_pos_lt. intro E. unfold idx in E. apply map_eq_nil in E. subst s. cbn in Hij. lia. }
  exists (firstn a s), (skipn (b + 1 - a) (skipn a s)).
  split; [rewrite firstn_skipn, firstn_skipn; reflexivity|].
  assert (NN : forall k, (k < b + 1 - a)%nat -> nth k (firstn (b + 1 - a) (skipn a s)) d = nth (a + k) s d).
  { intros k Hk. rewrite <- (firstn_skipn a s) at 2. rewrite app_nth2; rewrite firstn_length_le by lia; [|lia].
    replace (a + k - a)%nat with k by lia. rewrite <- (firstn_skipn (b + 1 - a) (skipn a s)) at 2. rewrite app_nth1; [reflexivity|].
    rewrite firstn_length, skipn_length. lia. }
  assert (LR : length (firstn (b + 1 - a) (skipn a s)) = (b + 1 - a)%nat) by (rewrite firstn_length, skipn_length; lia).
  split; [|split; [|split]].
  - replace (hd d (firstn (b + 1 - a) (skipn a s))) with (nth 0 (firstn (b + 1 - a) (skipn a s)) d) by (destruct (firstn _ _); reflexivity).
    rewrite NN by lia. rewrite Nat.add_0_r, <- NI. apply AT. apply first_pos_at. lia.
  - replace (last (firstn (b + 1 - a) (skipn a s)) d) with (nth (b - a) (firstn (b + 1 - a) (skipn a s)) d).
    + rewrite NN by lia. replace (a + (b - a))%nat with b by lia. rewrite <- NI. apply AT. apply last_pos_at. fold b. lia.
    + replace (b - a)%nat with (length (firstn (b + 1 - a) (skipn a s)) - 1)%nat by lia.
      apply nth_last. rewrite LR. lia.
  - apply Forall_forall. intros p Hp F. apply In_nth with (d := d) in Hp as (k & Hk & <-). rewrite firstn_length_le in Hk by lia.
    assert (E : nth k (firstn a s) d = nth k s d).
    { rewrite <- (firstn_skipn a s) at 2. rewrite app_nth1; [reflexivity|]. rewrite firstn_length_le; lia. }
    rewrite E, <- NI in F. apply AT in F. rewrite (first_pos_before (at_hour shift) (fst d) idx k Hk) in F. discriminate.
  - apply Forall_forall. intros p Hp F. apply In_nth with (d := d) in Hp as (k & Hk & <-). rewrite <- skipn_add in *.
    replace (a + (b + 1 - a))%nat with (b + 1)%nat in * by lia. rewrite skipn_length in Hk.
    assert (E : nth k (skipn (b + 1) s) d = nth (b + 1 + k) s d).
    { rewrite <- (firstn_skipn (b + 1) s) at 2. rewrite app_nth2; rewrite firstn_length_le by lia; [|lia]. f_equal. lia. }
    rewrite E, <- NI in F. apply AT in F. rewrite (last_pos_after (at_hour la) (fst d) idx (b + 1 + k)) in F; [discriminate|fold b; lia|lia].
Qed.
Print Assumptions C27_block.
Theorem C27_contiguous {A} shift (s : list (Z * A)) : StronglySorted Z.lt (map fst s) ->
  exists pre post, s = pre ++ drop_incomplete_days shift s ++ post.
Proof.
  intro SS. rewrite drop_block by exact SS. do 2 eexists. rewrite firstn_skipn, firstn_skipn. reflexivity.
Qed.
Print Assumptions C27_contiguous.
Theorem C27_invalid_shift {A} shift (s : list (Z * A)) : shift < 0 \/ 23 < shift ->
  drop_incomplete_days shift s = drop_incomplete_days 0 s.
Proof.
  intro H. unfold drop_incomplete_days. replace ((23 <? shift) || (shift <? 0)) with true; [reflexivity|].
  symmetry. apply orb_true_iff. rewrite !Z.ltb_lt. lia.
Qed.
Print Assumptions C27_invalid_shift.
(** an incomplete first day survives as a single row *)
Theorem C27_incomplete_survives {A} shift p (s : list (Z * A)) : 0 <= shift <= 23 -> StronglySorted Z.lt (map fst (p :: s)) ->
  full_hour shift (fst p) -> Forall (fun q => ~ full_hour ((shift + 23) mod 24) (fst q)) s ->
  drop_incomplete_days shift (p :: s) = [p].
Proof.
  intros HS SS HP F. rewrite drop_block by exact SS.
  assert (ES : eff_shift shift = shift).
  { unfold eff_shift. destruct (Z.ltb_spec 23 shift), (Z.ltb_spec shift 0); cbn [orb]; lia. }
  rewrite ES. cbn [map first_pos last_pos].
  assert (A1 : at_hour shift (fst p) = true) by (unfold at_hour; destruct HP as [-> ->]; rewrite !Z.eqb_refl; reflexivity).
  rewrite A1.
  assert (A2 : existsb (at_hour ((shift + 23) mod 24)) (map fst s) = false).
  { apply not_true_iff_false. rewrite existsb_exists. intros (t & Ht & Q). apply in_map_iff in Ht as (q & <- & Hq).
    rewrite Forall_forall in F. apply (F q Hq). unfold at_hour in Q. apply andb_true_iff in Q as [Q1 Q2]. apply Z.eqb_eq in Q1, Q2. split; assumption. }
  rewrite A2. reflexivity.
Qed.
Print Assumptions C27_incomplete_survives.
Example C27_met : let s := combine (grid (5 * us_hour) us_hour 50) (seq 0 50) in
  StronglySorted Z.lt (map fst s) /\ full_hour 0 (fst (nth 19 s (0, O))) /\ full_hour 23 (fst (nth 42 s (0, O))) /\
  length (drop_incomplete_days 0 s) = 24%nat.
Proof.
  cbv zeta. split; [rewrite map_fst_combine by reflexivity; apply grid_sorted; reflexivity|]. repeat split; reflexivity.
Qed.

(** ** C28 *)
Theorem C28_precip_roundtrip e d0 (amounts : list xr) : amounts <> [] ->
  exists hourly, distribute_equally e (daily d0 amounts) true = Ok hourly /\
    get_col "precip" (daily_from_hourly [("precip"%string, hourly)])
    = Some (daily d0 (map (fun a => match a with NaN => Fin 0 | _ => a end) amounts)).
Proof.
  intro NE. rewrite distribute_xr_divide by exact NE. eexists. split; [reflexivity|].
  cbn [daily_from_hourly add_col get_col String.eqb Ascii.eqb Bool.eqb app]. f_equal. unfold day_sum.
  rewrite (resample_hours _ d0 (length amounts)) by (rewrite map_map; apply map_id).
  replace (map (fun a => match a with NaN => Fin 0 | _ => a end) amounts)
    with (map (fun i => match nth i amounts NaN with NaN => Fin 0 | _ => nth i amounts NaN end) (seq 0 (length amounts))).
  - rewrite daily_seq. apply map_ext_in. intros i Hi. apply in_seq in Hi. f_equal.
    rewrite (values_on_map_hours (fun t => (at_day d0 amounts NaN t / Fin 24)%num)) by lia.
    cbn [seq map]. rewrite !at_day_stamp by lia. set (x := nth i amounts NaN). clearbody x.
    destruct x as [r| | |].
    + rewrite xdiv_Fin by lra. change (nansum (map Fin (repeat (r / 24)%R 24)) = Fin r). rewrite CascadeFive.nansum_Fin. f_equal.
      unfold Rsum. cbn [repeat fold_right]. lra.
    + replace (PInf / Fin 24)%num with PInf by (cbn; destruct (Rleb_spec 0 24); [reflexivity|lra]). reflexivity.
    + replace (NInf / Fin 24)%num with NInf by (cbn; destruct (Rleb_spec 0 24); [reflexivity|lra]). reflexivity.
    + reflexivity.
  - set (G := fun a => match a with NaN => Fin 0 | _ => a end).
    transitivity (map G (map (fun i => nth i amounts NaN) (seq 0 (length amounts)))); [rewrite map_map; reflexivity|]. f_equal.
    clear. induction amounts as [|x l IH]; [reflexivity|]. cbn [length seq map nth]. f_equal. rewrite <- seq_shift, map_map. exact IH.
Qed.
Print Assumptions C28_precip_roundtrip.
Theorem C28_mean_roundtrip e d0 (means : list xr) : means <> [] ->
  exists hourly, distribute_equally e (daily d0 means) false = Ok hourly /\
    get_col "wind" (daily_from_hourly [("wind"%string, hourly)]) = Some (daily d0 means) /\
    get_col "temp" (daily_from_hourly [("temp"%string, hourly)]) = Some (daily d0 means) /\
    get_col "tmin" (daily_from_hourly [("temp"%string, hourly)]) = Some (daily d0 means) /\
    get_col "tmax" (daily_from_hourly [("temp"%string, hourly)]) = Some (daily d0 means).
Proof.
  intro NE. rewrite distribute_xr by exact NE. eexists. split; [reflexivity|].
  cbn [daily_from_hourly add_col get_col String.eqb Ascii.eqb Bool.eqb app]. unfold day_mean, day_min, day_max.
  assert (G : forall agg : list xr -> xr, (forall x, agg (repeat x 24) = x) ->
    Some (resample us_day agg (map (fun t => (t, at_day d0 means NaN t)) (hours_index d0 (length means)))) = Some (daily d0 means)).
  { intros agg HA. f_equal. rewrite (resample_hours _ d0 (length means)) by (rewrite map_map; apply map_id).
    replace (daily d0 means) with (daily d0 (map (fun i => nth i means NaN) (seq 0 (length means)))).
    - rewrite daily_seq. apply map_ext_in. intros i Hi. apply in_seq in Hi. f_equal.
      rewrite (values_on_map_hours (at_day d0 means NaN)) by lia.
      cbn [seq map]. rewrite !at_day_stamp by lia. apply HA.
    - f_equal. clear. induction means as [|x l IH]; [reflexivity|]. cbn [length seq map nth]. f_equal. rewrite <- seq_shift, map_map. exact IH. }
  assert (HM : forall x : xr, nanmean (repeat x 24) = x).
  { intros [r| | |]; try reflexivity.
    - change (nanmean (map Fin (repeat r 24)) = Fin r). rewrite nanmean_numeric; [|apply numeric_Fin|rewrite fins_Fin; discriminate].
      rewrite fins_Fin. f_equal. unfold Rmean. rewrite repeat_length. unfold Rsum. cbn [repeat fold_right INR]. lra.
    - cbn. destruct (Rleb_spec 0 24); [reflexivity|lra].
    - cbn. destruct (Rleb_spec 0 24); [reflexivity|lra]. }
  assert (HL : forall x : xr, nanmin (repeat x 24) = x).
  { intros [r| | |]; try reflexivity.
    change (nanmin (map Fin (repeat r 24)) = Fin r). 
    destruct (nanmin_numeric (map Fin (repeat r 24)) (numeric_Fin _)) as (m & -> & I & _); [rewrite fins_Fin; discriminate|].
    rewrite fins_Fin in I. apply repeat_spec in I. subst; reflexivity. }
  assert (HU : forall x : xr, nanmax (repeat x 24) = x).
  { intros [r| | |]; try reflexivity.
    change (nanmax (map Fin (repeat r 24)) = Fin r). 
    destruct (nanmax_numeric (map Fin (repeat r 24)) (numeric_Fin _)) as (m & -> & I & _); [rewrite fins_Fin; discriminate|].
    rewrite fins_Fin in I. apply repeat_spec in I. subst; reflexivity. }
  repeat split; apply G; assumption.
Qed.
Print Assumptions C28_mean_roundtrip.
Example C28_met : map (fun a => match a with NaN => Fin 0 | _ => a end) [Fin 2; NaN; Fin 0] = [Fin 2; Fin 0; Fin 0].
Proof. reflexivity. Qed.

(** ** C29 *)
Theorem C29_min_mean_max (s : list (Z * xr)) t r : numeric (map snd s) -> In (t, Fin r) s ->
  exists mean lo hi,
    entry_of (midnight (date_of t)) (match get_col "temp" (daily_from_hourly [("temp"%string, s)]) with Some c => c | None => [] end) = Some (Fin mean) /\
    entry_of (midnight (date_of t)) (match get_col "tmin" (daily_from_hourly [("temp"%string, s)]) with Some c => c | None => [] end) = Some (Fin lo) /\
    entry_of (midnight (date_of t)) (match get_col "tmax" (daily_from_hourly [("temp"%string, s)]) with Some c => c | None => [] end) = Some (Fin hi) /\
    (lo <= mean <= hi)%R /\ is_min (fins (values_on (date_of t) s)) lo /\ is_max (fins (values_on (date_of t) s)) hi.
Proof.
  intros HN HI. cbn [daily_from_hourly add_col get_col String.eqb Ascii.eqb Bool.eqb app]. unfold day_mean, day_min, day_max.
  assert (IT : In t (map fst s)) by (apply in_map_iff; exists (t, Fin r); auto).
  rewrite !entry_lookup. unfold midnight. rewrite !resample_day by exact IT.
  set (l := values_on (date_of t) s).
  assert (IL : In (Fin r) l).
  { unfold l, values_on. apply in_map_iff. exists (t, Fin r). split; [reflexivity|]. apply filter_In. split; [exact HI|]. apply Z.eqb_refl. }
  assert (NL : numeric l) by (apply values_on_numeric; exact HN).
  assert (NE : fins l <> []) by (apply fins_In in IL; destruct (fins l); [destruct IL|discriminate]).
  destruct (nanmin_numeric l NL NE) as (lo & El & Hl). destruct (nanmax_numeric l NL NE) as (hi & Eh & Hh).
  rewrite nanmean_numeric by assumption. rewrite El, Eh. exists (Rmean (fins l)), lo, hi. repeat (split; [reflexivity|]).
  split; [|split; assumption]. apply Rmean_bounds; [exact NE|]. intros x Hx. split; [apply Hl, Hx|apply Hh, Hx].
Qed.
Print Assumptions C29_min_mean_max.
Example C29_met : let s := [(0, Fin 1); (us_hour, NaN); (2 * us_hour, Fin 3)] in numeric (map snd s) /\ In (2 * us_hour, Fin 3) s.
Proof. cbv zeta. split; [repeat constructor|right; right; left; reflexivity]. Qed.

(** ** C30 *)
Theorem C30_normalised_span s m h1 h2 : numeric (map snd s) ->
  month_hour_values s m h1 <> [] -> month_hour_values s m h2 <> [] ->
  Rmean (month_hour_values s m h1) <> Rmean (month_hour_values s m h2) ->
  exists col, entry_of m (mean_course s true) = Some col /\
    (forall h v, entry_of h col = Some v -> v = NaN \/ exists r, v = Fin r /\ (0 <= r <= 1)%R) /\
    (forall h, month_hour_values s m h <> [] -> exists r, entry_of h col = Some (Fin r)) /\
    (exists h, entry_of h col = Some (Fin 0)) /\ (exists h, entry_of h col = Some (Fin 1)).
Proof.
  intros HN N1 N2 D. destruct (course_normalised s m h1 h2 HN N1 N2 D) as (col & lo & hi & E & LT & V & M & (hl & Nl & Rl) & (hh & Nh & Rh)).
  exists col. split; [exact E|]. split; [|split; [|split]].
  - intros h v Hv. destruct (month_hour_values s m h) as [|a r] eqn:EV.
    + destruct (M h EV) as [Q|Q]; rewrite Q in Hv; [left; congruence|discriminate].
    + destruct (V h ltac:(rewrite EV; discriminate)) as [B Q]. rewrite Q in Hv. right. injection Hv as <-. eexists. split; [reflexivity|].
      split.
      * apply Rmult_le_pos; [lra|]. left. apply Rinv_0_lt_compat. lra.
      * apply Rmult_le_reg_r with (hi - lo)%R; [lra|]. unfold Rdiv. rewrite Rmult_assoc, Rinv_l by lra. lra.
  - intros h Hh. destruct (V h Hh) as [_ Q]. eauto.
  - exists hl. destruct (V hl Nl) as [_ ->]. rewrite Rl. do 2 f_equal. field. lra.
  - exists hh. destruct (V hh Nh) as [_ ->]. rewrite Rh. do 2 f_equal. field. lra.
Qed.
Print Assumptions C30_normalised_span.
(** the course is the affine image of the hourly means *)
Theorem C30_normalised_affine s m h1 h2 : numeric (map snd s) ->
  month_hour_values s m h1 <> [] -> month_hour_values s m h2 <> [] ->
  Rmean (month_hour_values s m h1) <> Rmean (month_hour_values s m h2) ->
  exists col lo hi, entry_of m (mean_course s true) = Some col /\ (lo < hi)%R /\
    forall h, month_hour_values s m h <> [] ->
      entry_of h col = Some (Fin ((Rmean (month_hour_values s m h) - lo) / (hi - lo))).
Proof.
  intros HN N1 N2 D. destruct (course_normalised s m h1 h2 HN N1 N2 D) as (col & lo & hi & E & LT & V & _).
  exists col, lo, hi. split; [exact E|]. split; [exact LT|]. intros h Hh. apply (V h Hh).
Qed.
Print Assumptions C30_normalised_affine.
Theorem C30_constant_nan s m : numeric (map snd s) ->
  (exists h, month_hour_values s m h <> []) ->
  (forall h1 h2, month_hour_values s m h1 <> [] -> month_hour_values s m h2 <> [] ->
     Rmean (month_hour_values s m h1) = Rmean (month_hour_values s m h2)) ->
  exists col, entry_of m (mean_course s true) = Some col /\ forall h v, entry_of h col = Some v -> v = NaN.
Proof. apply course_constant. Qed.
Print Assumptions C30_constant_nan.
Theorem C30_plain_means s m h : numeric (map snd s) -> month_hour_values s m h <> [] ->
  exists col, entry_of m (mean_course s false) = Some col /\ entry_of h col = Some (Fin (Rmean (month_hour_values s m h))).
Proof. apply course_plain. Qed.
Print Assumptions C30_plain_means.
Example C30_met : let s := [(0, Fin 1); (us_hour, Fin 2); (us_day, Fin 3)] in
  numeric (map snd s) /\ month_hour_values s 1 0 = [1%R; 3%R] /\ month_hour_values s 1 1 = [2%R].
Proof. cbv zeta. split; [repeat constructor|]. split; reflexivity. Qed.

(** ** C31 *)
Open Scope R_scope.
Theorem C31_linear_positive T : 0.53 < T ->
  exists es, 0 < es /\ forall h, vapor_pressure1 (Fin T) (Fin h) = Fin (es * (h / 100)).
Proof.
  intro HT. exists (svp T). split; [apply svp_pos|]. intro h. rewrite vapor_pressure1_Fin by exact HT. f_equal. unfold Rdiv. ring.
Qed.
Print Assumptions C31_linear_positive.
Theorem C31_increasing T1 T2 h : 0.53 < T1 -> T1 < T2 -> 0 < h ->
  exists v1 v2, vapor_pressure1 (Fin T1) (Fin h) = Fin v1 /\ vapor_pressure1 (Fin T2) (Fin h) = Fin v2 /\ v1 < v2.
Proof.
  intros H1 H2 Hh. do 2 eexists. rewrite !vapor_pressure1_Fin by lra. split; [reflexivity|]. split; [reflexivity|].
  assert (svp T1 * h < svp T2 * h) by (apply Rmult_lt_compat_r; [exact Hh|apply svp_incr; assumption]). lra.
Qed.
Print Assumptions C31_increasing.
Lemma mag_continuous a b eps : 0 < b -> 0 < eps -> exists delta, 0 < delta /\ delta < b / 2 /\ forall x, Rabs x < delta -> Rabs (6.112 * exp (mag a b x) - 6.112) < eps.
Proof.
  intros Hb He.
  assert (C : continuity_pt (fun x => 6.112 * exp (mag a b x)) 0).
  { unfold mag. apply derivable_continuous_pt. 
    apply (derivable_pt_scal (fun x => exp (a * x / (b + x)))).
    apply (derivable_pt_comp (fun x => a * x / (b + x)) exp); [|apply derivable_pt_exp].
    apply (derivable_pt_div (fun x => a * x) (fun x => b + x)).
    - apply (derivable_pt_scal id). apply derivable_pt_id.
    - apply (derivable_pt_plus (fun _ => b) id); [apply derivable_pt_const|apply derivable_pt_id].
    - lra. }
  destruct (C eps He) as (alp & Ha & H).
  exists (Rmin alp (b / 4)). split; [apply Rmin_pos; lra|]. split; [pose proof (Rmin_r alp (b / 4)); lra|].
  intros x Hx. destruct (Req_dec x 0) as [->|NE].
  - rewrite mag_0, exp_0. replace (6.112 * 1 - 6.112) with 0 by lra. rewrite Rabs_R0. exact He.
  - specialize (H x). unfold dist in H. cbn in H. unfold R_dist in H. rewrite mag_0, exp_0, Rmult_1_r in H. apply H.
    split; [split; [exact I|auto]|]. rewrite Rminus_0_r. pose proof (Rmin_l alp (b / 4)). lra.
Qed.
Theorem C31_continuous_at_0C h eps : 0 < eps ->
  vapor_pressure1 (Fin 273.15) (Fin h) = Fin (6.112 * h / 100) /\
  exists delta, 0 < delta /\ forall T v, Rabs (T - 273.15) < delta -> vapor_pressure1 (Fin T) (Fin h) = Fin v ->
    Rabs (v - 6.112 * h / 100) < eps.
Proof.
  intro He. split; [rewrite vapor_pressure1_Fin by lra; rewrite svp_zero; reflexivity|].
  set (e1 := eps / (Rabs h + 1)). pose proof (Rabs_pos h).
  assert (He1 : 0 < e1) by (apply Rdiv_lt_0_compat; lra).
  destruct (mag_continuous 17.62 243.12 e1 ltac:(lra) He1) as (d1 & P1 & Q1 & R1).
  destruct (mag_continuous 22.46 272.62 e1 ltac:(lra) He1) as (d2 & P2 & Q2 & R2).
  exists (Rmin d1 d2). split; [apply Rmin_pos; assumption|]. intros T v HT E.
  pose proof (Rmin_l d1 d2). pose proof (Rmin_r d1 d2).
  assert (BT : -122 < T - 273.15) by (pose proof (Rabs_def2 _ _ HT) as [_ B]; lra).
  rewrite vapor_pressure1_Fin in E by lra. injection E as <-.
  assert (S : Rabs (svp T - 6.112) < e1).
  { unfold svp. destruct (Rle_dec 273.15 T); [apply R1; lra|apply R2; lra]. }
  replace (svp T * h / 100 - 6.112 * h / 100) with ((svp T - 6.112) * (h / 100)) by lra. rewrite Rabs_mult.
  assert (A : Rabs (h / 100) <= Rabs h + 1).
  { unfold Rdiv. rewrite Rabs_mult, (Rabs_right (/ 100)) by lra. lra. }
  assert (B : e1 * (Rabs h + 1) = eps) by (unfold e1; field; lra).
  apply Rle_lt_trans with (Rabs (svp T - 6.112) * (Rabs h + 1)).
  - apply Rmult_le_compat_l; [apply Rabs_pos|exact A].
  - rewrite <- B. apply Rmult_lt_compat_r; lra.
Qed.
Print Assumptions C31_continuous_at_0C.
Theorem C31_missing h : vapor_pressure1 NaN h = NaN /\ vapor_pressure1 h NaN = NaN.
Proof. apply vapor_pressure1_NaN. Qed.
Print Assumptions C31_missing.
Theorem C31_elementwise temp hum : 
  (length temp = length hum -> exists out, vapor_pressure temp hum = Ok out /\ length out = length temp /\
     forall i t h, nth_error temp i = Some t -> nth_error hum i = Some h -> nth_error out i = Some (vapor_pressure1 t h)) /\
  (length temp <> length hum -> vapor_pressure temp hum = Err AssertionError).
Proof.
  unfold vapor_pressure. split; intro L.
  - rewrite L, Nat.eqb_refl. eexists. split; [reflexivity|]. split; [rewrite map_length, combine_length; lia|].
    intros i t h Ht Hh. rewrite nth_error_map. 
    assert (E : nth_error (combine temp hum) i = Some (t, h)).
    { clear L. revert hum i Ht Hh. induction temp as [|x temp IH]; intros [|y hum] [|i] Ht Hh; try discriminate; cbn in *; [congruence|apply IH; assumption]. }
    rewrite E. reflexivity.
  - destruct (Nat.eqb_spec (length temp) (length hum)); [contradiction|reflexivity].
Qed.
Print Assumptions C31_elementwise.
Example C31_met : 0.53 < 250 /\ 250 < 290.
Proof. lra. Qed.

(** ** C32 *)
Theorem C32_dewpoint T h : 0.53 < T -> 0 < h -> h <= 100 ->
  exists d, dewpoint1 (Fin T) (Fin h) = Fin d /\ 0.53 < d /\ d <= T /\ (h = 100 -> d = T) /\
    ((273.15 <= d \/ T < 273.15) -> vapor_pressure1 (Fin d) (Fin 100) = vapor_pressure1 (Fin T) (Fin h)) /\
    (273.15 <= T -> d < 273.15 -> 138 < d ->
     exists v w, vapor_pressure1 (Fin d) (Fin 100) = Fin v /\ vapor_pressure1 (Fin T) (Fin h) = Fin w /\ v < w).
Proof.
  intros HT H1 H2. exists (dew T h). rewrite dewpoint1_Fin by assumption. split; [reflexivity|].
  destruct (dew_low T h HT H1 H2) as [DL _].
  split; [exact DL|]. split.
  - rewrite <- (dew_saturated T HT) at 2. apply dew_le; lra.
  - split; [intros ->; apply dew_saturated, HT|]. split.
    + intro S. rewrite !vapor_pressure1_Fin by assumption. f_equal. apply dew_inverse; assumption.
    + intros A B C. do 2 eexists. rewrite !vapor_pressure1_Fin by assumption. split; [reflexivity|]. split; [reflexivity|].
      pose proof (dew_across T h A H1 H2 C B). lra.
Qed.
Print Assumptions C32_dewpoint.
Theorem C32_monotone T h1 h2 d1 d2 : 0.53 < T -> 0 < h1 -> h1 <= h2 -> h2 <= 100 ->
  dewpoint1 (Fin T) (Fin h1) = Fin d1 -> dewpoint1 (Fin T) (Fin h2) = Fin d2 -> d1 <= d2.
Proof.
  intros HT A B C E1 E2. rewrite dewpoint1_Fin in E1, E2 by lra. injection E1 as <-. injection E2 as <-. apply (dew_le T h1 h2); assumption.
Qed.
Print Assumptions C32_monotone.
Theorem C32_dry_air T : 0.53 < T -> dewpoint1 (Fin T) (Fin 0) = NaN.
Proof. apply dewpoint_dry. Qed.
Print Assumptions C32_dry_air.
(** the inverse property fails for warm air with a dew point below freezing *)
Theorem C32_inverse_refuted : exists T h d, 0.53 < T /\ 0 < h <= 100 /\ dewpoint1 (Fin T) (Fin h) = Fin d /\
  vapor_pressure1 (Fin d) (Fin 100) <> vapor_pressure1 (Fin T) (Fin h).
Proof.
  (* humidity 100*exp(-1) % at 0 degrees C *)
  exists 273.15, (100 * exp (-1)).
  assert (E1 : exp (-1) <= 1) by (rewrite <- exp_0; left; apply exp_increasing; lra). pose proof (exp_pos (-1)) as E0.
  destruct (C32_dewpoint 273.15 (100 * exp (-1)) ltac:(lra) ltac:(lra) ltac:(lra)) as (d & E & B & _ & _ & _ & X).
  exists d. split; [lra|]. split; [lra|]. split; [exact E|].
  assert (D : d = 273.15 + unmag 17.62 243.12 (-1)).
  { rewrite dewpoint1_Fin in E by lra. injection E as <-. destruct (Rle_dec 273.15 273.15); [|lra].
    replace (273.15 - 273.15) with 0 by lra. rewrite mag_0. replace (100 * exp (-1) / 100) with (exp (-1)) by lra. rewrite ln_exp. do 2 f_equal. lra. }
  assert (DV : unmag 17.62 243.12 (-1) = - 243.12 / 18.62) by (unfold unmag; lra).
  destruct X as (v & w & -> & -> & LT); [lra|lra|lra|]. intro Q. injection Q as Q. lra.
Qed.
Print Assumptions C32_inverse_refuted.

(** ** C33 *)
Theorem C33_sun_times t lon lat tz : exists rise noon set dl raw_rise raw_set k1 k2,
  get_sun_times [t] (Fin lon) (Fin lat) (Fin tz)
  = [(t, {| sunrise := Fin rise; sunnoon := Fin noon; sunset := Fin set; daylength := Fin dl |})] /\
  0 <= dl <= 24 /\
  rise = raw_rise + 24 * IZR k1 /\ set = raw_set + 24 * IZR k2 /\ (k1 = 0 \/ k1 = 1)%Z /\ (k2 = 0 \/ k2 = -1)%Z /\
  raw_set - raw_rise = dl /\ noon = (raw_rise + raw_set) / 2 /\
  noon = noon_R (doy_of_day (date_of t)) lon tz /\
  (let u := tan (lat * (PI / 180)) * tan (decl_R (doy_of_day (date_of t))) in
   (dl = 24 <-> 1 <= u) /\ (dl = 0 <-> u <= -1) /\ (-1 <= u <= 1 -> cos (dl / 2 * (PI / 12)) = - u)).
Proof.
  cbn [get_sun_times map]. set (doy := doy_of_day (date_of t)).
  rewrite sun_times1_ok. set (v := - tan (lat * (PI / 180)) * tan (decl_R doy)). set (noon := noon_R doy lon tz).
  pose proof (half_day_range v) as HR. set (hd := half_day v) in *.
  do 4 eexists. exists (noon - hd), (noon + hd), (if Rlt_dec (noon - hd) 0 then 1 else 0)%Z, (if Rlt_dec 24 (noon + hd) then -1 else 0)%Z.
  split; [reflexivity|]. split; [lra|].
  split; [destruct (Rlt_dec (noon - hd) 0); lra|]. split; [destruct (Rlt_dec 24 (noon + hd)); lra|].
  split; [destruct (Rlt_dec (noon - hd) 0); auto|]. split; [destruct (Rlt_dec 24 (noon + hd)); auto|].
  split; [lra|]. split; [lra|]. split; [reflexivity|]. cbv zeta. fold doy.
  assert (EV : v = - (tan (lat * (PI / 180)) * tan (decl_R doy))) by (unfold v; ring).
  pose proof (half_day_full v) as HF. pose proof (half_day_none v) as HZ. fold hd in HF, HZ. rewrite EV in HF, HZ.
  set (u := tan (lat * (PI / 180)) * tan (decl_R doy)) in *. split; [|split].
  - split; intro Q; [apply Ropp_le_cancel; apply HF; lra|].
    assert (hd = 12) by (apply HF; lra). lra.
  - split; intro Q; [assert (hd = 0) by lra; apply HZ in H; lra|].
    assert (hd = 0) by (apply HZ; lra). lra.
  - intro Q. replace (2 * hd / 2) with hd by lra. unfold hd. rewrite cos_half_day by lra. exact EV.
Qed.
Print Assumptions C33_sun_times.
(** on the equator every day has 12 hours of sun *)
Example C33_met : exists row, get_sun_times [0%Z] (Fin 0) (Fin 0) (Fin 0) = [(0%Z, row)] /\ daylength row = Fin 12.
Proof.
  destruct (C33_sun_times 0 0 0 0) as (rise & noon & set & dl & r1 & r2 & k1 & k2 & E & B & _ & _ & _ & _ & _ & _ & _ & H1 & H2 & H3).
  eexists. split; [exact E|]. cbn [daylength]. f_equal. rewrite Rmult_0_l, tan_0, Rmult_0_l in *.
  specialize (H3 ltac:(lra)). rewrite Ropp_0 in H3. pose proof PI_RGT_0.
  assert (A : 0 <= dl / 2 * (PI / 12) <= PI) by (split; [apply Rmult_le_pos; lra|]; nra).
  assert (dl / 2 * (PI / 12) = PI / 2).
  { rewrite <- (acos_cos _ A), H3. apply acos_0. }
  nra.
Qed.
Close Scope R_scope.

(** ** C66 *)
Theorem C66_placement e d0 n (cols : list (Z * list xr)) : has_series_append e = true ->
  Forall (fun c => 0 <= fst c < 24 /\ length (snd c) = S n) cols -> NoDup (map fst cols) ->
  exists data, prepare_interpolation_data e (daily_index d0 (S n)) cols = Ok data /\
    map fst data = hours_index d0 (S n) /\
    forall i h, (i < S n)%nat -> (h < 24)%nat ->
      (forall v, In (Z.of_nat h, v) cols -> nth h (values_on (d0 + Z.of_nat i) data) NaN = nth i v NaN) /\
      (~ In (Z.of_nat h) (map fst cols) -> nth h (values_on (d0 + Z.of_nat i) data) NaN = NaN).
Proof.
  intros HE F ND. destruct (prepare_ok e d0 n cols HE F ND) as (data & E & I & V). exists data. split; [exact E|]. split; [exact I|].
  intros i h Hi Hh. specialize (V i h Hi Hh). change (n_nan : xr) with NaN in V. split.
  - intros v Hv. rewrite V. apply lookup_In in Hv; [|exact ND]. rewrite Hv. reflexivity.
  - intro Hn. rewrite V. apply lookup_none in Hn. rewrite Hn. reflexivity.
Qed.
Print Assumptions C66_placement.
Theorem C66_keeps_observations dir limit (l : list xr) i r : nth i l NaN = Fin r -> nth i (interpolate_linear dir limit l) NaN = Fin r.
Proof. apply interp_keeps. Qed.
Print Assumptions C66_keeps_observations.
Theorem C66_between dir limit pre a gap b post j : (j < gap)%nat ->
  forward_ok dir limit (Z.of_nat j + 1) || backward_ok dir limit (Z.of_nat gap - Z.of_nat j) = true ->
  exists r, nth (length pre + 1 + j) (interpolate_linear dir limit (pre ++ Fin a :: repeat NaN gap ++ Fin b :: post)) NaN = Fin r /\
    (Rmin a b <= r <= Rmax a b)%R /\ (r = a + (b - a) * (INR j + 1) / (INR gap + 1))%R.
Proof.
  intros Hj HL. eexists. rewrite interp_inside by exact Hj.
  rewrite HL.
  split; [reflexivity|]. split; [|reflexivity].
  assert (Hf : (0 <= (INR j + 1) / (INR gap + 1) <= 1)%R).
  { pose proof (pos_INR j). pose proof (pos_INR gap). assert (INR j + 1 <= INR gap)%R by (rewrite <- S_INR; apply le_INR; lia). split.
    - apply Rmult_le_pos; [lra|]. left. apply Rinv_0_lt_compat. lra.
    - apply Rmult_le_reg_r with (INR gap + 1)%R; [lra|]. unfold Rdiv. rewrite Rmult_assoc, Rinv_l by lra. lra. }
  set (f := ((INR j + 1) / (INR gap + 1))%R) in *.
  replace (a + (b - a) * (INR j + 1) / (INR gap + 1))%R with (a + (b - a) * f)%R by (unfold f, Rdiv; ring).
  unfold Rmin, Rmax. destruct (Rle_dec a b); split; nra.
Qed.
Print Assumptions C66_between.
Theorem C66_far_and_ends dir limit pre a gap b post j : (j < gap)%nat ->
  (forward_ok dir limit (Z.of_nat j + 1) = false -> backward_ok dir limit (Z.of_nat gap - Z.of_nat j) = false ->
   nth (length pre + 1 + j) (interpolate_linear dir limit (pre ++ Fin a :: repeat NaN gap ++ Fin b :: post)) NaN = NaN) /\
  nth j (interpolate_linear dir limit (repeat NaN gap ++ Fin b :: post)) NaN = (if backward_ok dir limit (Z.of_nat gap - Z.of_nat j) then Fin b else NaN) /\
  nth (length pre + 1 + j) (interpolate_linear dir limit (pre ++ Fin a :: repeat NaN gap)) NaN = (if forward_ok dir limit (Z.of_nat j + 1) then Fin a else NaN).
Proof.
  intro Hj. split; [|split; [apply interp_leading; exact Hj|apply interp_trailing; exact Hj]].
  intros H1 H2. rewrite interp_inside by exact Hj. rewrite H1, H2. reflexivity.
Qed.
Print Assumptions C66_far_and_ends.
Theorem C66_current_pandas e d0 n hour (vals : list xr) cols dir limit : has_series_append e = false -> 0 <= hour < 24 -> length vals = S n ->
  station_interpolate e dir limit (daily_index d0 (S n)) ((hour, vals) :: cols) = Err AttributeError.
Proof. intros HE H1 H2. unfold station_interpolate. rewrite prepare_modern; [reflexivity|exact HE|split; assumption]. Qed.
Print Assumptions C66_current_pandas.
Example C66_met : let cols := [(7, [Fin 1; Fin 2]); (14, [Fin 9; NaN])] in
  Forall (fun c => 0 <= fst c < 24 /\ length (snd c) = 2%nat) cols /\ NoDup (map fst cols).
Proof.
  cbv zeta. split; [repeat constructor; cbn; lia|]. cbn. constructor; [intros [C|[]]; discriminate|]. constructor; [intros []|constructor].
Qed.
