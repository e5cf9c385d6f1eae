(** Properties C54 (constructor), C89-C93: what successful statistics calls store, and what a station
    calibrated with them produces. *)
From Coq Require Import String ZArith List Bool Reals Sorted Lia Lra.
From Verif Require Import Py Num Cal Series Frame SpecBase TimeProofs IndexProofs DaysProofs InterpProofs TempProofs RadBC UtilModel CascadeModel PrecipModel SpecCascade PropsCascade MasterProofs PropsPrecip
  AggModel BuildProofs SpecBuild SpecAgg AggProofs AggExact PropsAgg Trans UtilModel2 SpecUtil UtilProofs SpecRad RadProofs SunProofs TempModel RadModel RadStats HumModel HumProofs PropsHum WindModel PropsWind PropsTemp StationModel SpecStation StationProofs StationDaily StationCascade PropsStation PropsStation2.
Import ListNotations.
Open Scope Z_scope.

(** ** C54, the constructor *)
Lemma upd_last {A} (l : list A) x y : upd (length l) y (l ++ [x]) = l ++ [y].
Proof. induction l as [|a l IH]; [reflexivity|]. cbn. f_equal. exact IH. Qed.
Lemma error_last {A} (l : list A) x : nth_error (l ++ [x]) (length l) = Some x.
Proof. rewrite nth_error_app2, Nat.sub_diag by lia. reflexivity. Qed.
Lemma nth_last {A} (l : list A) x d : nth (length l) (l ++ [x]) d = x.
Proof. rewrite app_nth2, Nat.sub_diag by lia. reflexivity. Qed.
Theorem C54_constructor cf mb fc lr pc e w lon lat tz daily w' err : step cf mb fc lr pc e w (NewStation lon lat tz daily) = (w', err) ->
  match err with
  | Some _ => w' = w                                                       (* no object comes into being *)
  | None => (exists st, w_stations w' = w_stations w ++ [st] /\ s_stats st = length (w_stats w) /\
                        s_lon st = lon /\ s_lat st = lat /\ s_tz st = tz /\
                        (daily = None -> s_daily st = None /\ s_disagg st = None /\ s_sun st = None)) /\
            (exists q, w_stats w' = w_stats w ++ [q] /\ q_lon q = lon /\ q_lat q = lat /\ q_tz q = tz /\
                       q_data q = None /\ q_wind_a q = None /\ q_wind_b q = None /\ q_wind_shift q = None /\ q_months q = None /\ q_casc q = None /\
                       q_a0 q = None /\ q_a1 q = None /\ q_kr q = None /\ q_mhp q = None /\ q_delta q = None /\ q_tcourse q = None)
  end.
Proof.
  cbn [step]. unfold new_station. set (i := length (w_stations w)). set (r := length (w_stats w)).
  match goal with |- context [set_tz ?x i tz] => set (w2 := set_tz x i tz) end.
  set (st := {| s_lon := lon; s_lat := lat; s_tz := tz; s_stats := r; s_daily := None; s_disagg := None; s_sun := None |}).
  assert (W2 : w2 = {| w_stats := w_stats w ++ [new_stats lon lat tz]; w_stations := w_stations w ++ [st] |}).
  { unfold w2, set_stats, i. cbn [w_stations]. rewrite error_last. cbv zeta. unfold stats_of, upd_station, upd_stats. cbn [w_stations w_stats s_lon s_lat s_tz s_stats].
    rewrite !upd_last. unfold set_lon. cbn [w_stations]. rewrite error_last. unfold stats_of, upd_station, upd_stats, locate_station. cbn [w_stations w_stats s_lon s_lat s_tz s_stats].
    rewrite !upd_last. unfold set_lat. cbn [w_stations]. rewrite error_last. unfold stats_of, upd_station, upd_stats, locate_station. cbn [w_stations w_stats s_lon s_lat s_tz s_stats].
    rewrite !upd_last. unfold set_tz. cbn [w_stations]. rewrite error_last. unfold stats_of, upd_station, upd_stats, locate_station. cbn [w_stations w_stats s_lon s_lat s_tz s_stats].
    unfold r. rewrite !nth_last, !upd_last. rewrite !nth_last. reflexivity. }
  rewrite W2. clearbody w2. clear W2 w2. unfold i. cbn [w_stations]. rewrite error_last.
  destruct daily as [v|].
  - destruct (set_daily e st v) as [st' [x|]] eqn:E; intro H; injection H as <- <-; [reflexivity|].
    pose proof (set_daily_base e st v) as (A & B & C & D). rewrite E in A, B, C, D. cbn [fst] in *.
    split; [exists st'|exists (new_stats lon lat tz)]; unfold upd_station; cbn [w_stations w_stats]; [rewrite upd_last|]; repeat split; try assumption; discriminate.
  - intro H; injection H as <- <-. split; [exists st|exists (new_stats lon lat tz)]; repeat split.
Qed.
Print Assumptions C54_constructor.
(** the constructor raises exactly when the assignment of the daily data does; refused data create nothing *)
Theorem C54_constructor_refused cf mb fc lr pc e w lon lat tz v : match v with VFrame f => frame_ok f | VOther => True end -> refused v ->
  exists x, step cf mb fc lr pc e w (NewStation lon lat tz (Some v)) = (w, Some x).
Proof.
  intros FO RF. destruct (step cf mb fc lr pc e w (NewStation lon lat tz (Some v))) as [w' [x|]] eqn:E.
  - pose proof (C54_constructor _ _ _ _ _ _ _ _ _ _ _ _ _ E) as H. cbn in H. exists x. rewrite H. reflexivity.
  - exfalso. cbn [step] in E. unfold new_station in E.
    match type of E with (match nth_error ?a ?b with _ => _ end) = _ => destruct (nth_error a b) as [st|] eqn:EN end.
    + destruct (C54_refused_unchanged e st v FO RF) as [_ N]. destruct (set_daily e st v) as [st' [y|]]; [discriminate|]. apply N. reflexivity.
    + apply nth_error_None in EN. revert EN. unfold set_tz, set_lat, set_lon, set_stats.
      repeat (match goal with |- context [match nth_error ?l ?k with _ => _ end] => destruct (nth_error l k) end;
              cbn [upd_station upd_stats w_stations w_stats]; rewrite ?upd_length, ?app_length; cbn [length]; try lia).
Qed.
Print Assumptions C54_constructor_refused.
Example C54_constructor_met cf mb fc lr pc :
  exists x, step cf mb fc lr pc modern empty_world (NewStation (Some (Fin 1)) (Some (Fin 2)) (Some (Fin 0)) (Some VOther)) = (empty_world, Some x).
Proof. apply C54_constructor_refused; [exact I|apply RType]. Qed.

(** ** C89 *)
(** parts of a statistics object *)
Definition same_location (q q' : sstats) : Prop := q_lon q' = q_lon q /\ q_lat q' = q_lat q /\ q_tz q' = q_tz q.
Definition same_record (q q' : sstats) : Prop := q_data q' = q_data q.
Definition same_wind (q q' : sstats) : Prop := q_wind_a q' = q_wind_a q /\ q_wind_b q' = q_wind_b q /\ q_wind_shift q' = q_wind_shift q.
Definition same_precip (q q' : sstats) : Prop := q_months q' = q_months q /\ q_casc q' = q_casc q.
Definition same_hum (q q' : sstats) : Prop := q_a0 q' = q_a0 q /\ q_a1 q' = q_a1 q /\ q_kr q' = q_kr q /\ q_mhp q' = q_mhp q.
Definition same_temp (q q' : sstats) : Prop := q_delta q' = q_delta q /\ q_tcourse q' = q_tcourse q.
Definition same_glob (q q' : sstats) : Prop := q_glob q' = q_glob q.
(** the observations of a column *)
Definition observed (q : sstats) (name : string) (v : list xr) : Prop :=
  exists d, q_data q = Some d /\ assoc name (f_cols d) = Some v.
Definition record_of (q : sstats) (name : string) : list (Z * xr) :=
  match q_data q with
  | Some d => match assoc name (f_cols d) with Some v => combine (f_index d) v | None => [] end
  | None => []
  end.
(** one row per valid observation: mean of the valid observations of its day, hour, value *)
Definition wind_rows (rec : list (Z * xr)) : list (xr * Z * xr) :=
  flat_map (fun p => match snd p with
                     | Fin r => [(Fin (Rmean (fins (values_on (date_of (fst p)) rec))), hour_of (fst p), Fin r)]
                     | _ => []
                     end) rec.
Lemma cosine_rows_eq rec : numeric (map snd rec) -> cosine_rows rec = wind_rows rec.
Proof.
  intro N. unfold cosine_rows, wind_rows. rewrite !flat_map_concat_map. f_equal. apply map_ext_in. intros [t v] I. cbn [fst snd].
  change (map snd (filter (fun q : Z * xr => date_of (fst q) =? date_of t) rec)) with (values_on (date_of t) rec).
  assert (V : match v with Fin _ | NaN => True | _ => False end) by (unfold numeric in N; rewrite Forall_forall in N; apply N, in_map_iff; exists (t, v); auto).
  destruct v as [r| | |]; try destruct V; [|rewrite orb_true_r; reflexivity].
  rewrite nanmean_numeric; [reflexivity|apply values_on_numeric, N|].
  assert (IF : In (Fin r) (values_on (date_of t) rec)).
  { unfold values_on. apply in_map_iff. exists (t, Fin r). split; [reflexivity|]. apply filter_In. split; [exact I|apply Z.eqb_refl]. }
  apply fins_In in IF. intro K. rewrite K in IF. destruct IF.
Qed.
Theorem C89_wind cf mb fc lr pc e q q' : run_stat cf mb fc lr pc e q QWind = (q', None) -> numeric (map snd (record_of q "wind")) ->
  (exists v, observed q "wind" v) /\
  (exists a b s, fc (wind_rows (record_of q "wind")) = Ok (a, b, s) /\ q_wind_a q' = Some a /\ q_wind_b q' = Some b /\ q_wind_shift q' = Some s) /\
  same_location q q' /\ same_record q q' /\ same_precip q q' /\ same_hum q q' /\ same_temp q q' /\ same_glob q q'.
Proof.
  cbn [run_stat]. unfold calc_wind_stats, data_frame, record_of, observed. destruct (q_data q) as [d|] eqn:ED; [|discriminate]. cbn [bind]. unfold fcol.
  destruct (assoc "wind" (f_cols d)) as [v|] eqn:EV; [|discriminate]. cbn [bind]. intros H N. rewrite cosine_rows_eq in H by exact N.
  destruct (fc _) as [[[a b] s]|x]; [|discriminate]. injection H as <-. split; [exists v, d; auto|]. split; [exists a, b, s; repeat split; reflexivity|].
  unfold same_record. cbn [with_wind q_data]. repeat split; congruence.
Qed.
Print Assumptions C89_wind.
(** when it succeeds, and when it raises *)
Theorem C89_wind_outcome cf mb fc lr pc e q : numeric (map snd (record_of q "wind")) ->
  snd (run_stat cf mb fc lr pc e q QWind) =
    match q_data q with
    | None => Some AttributeError
    | Some d => match assoc "wind" (f_cols d) with
                | None => Some AttributeError
                | Some _ => match fc (wind_rows (record_of q "wind")) with Ok _ => None | Err x => Some x end
                end
    end.
Proof.
  cbn [run_stat]. unfold calc_wind_stats, data_frame, record_of. destruct (q_data q) as [d|] eqn:ED; [|reflexivity]. cbn [bind]. unfold fcol.
  destruct (assoc "wind" (f_cols d)) as [v|] eqn:EV; [|reflexivity]. cbn [bind]. intros N. rewrite cosine_rows_eq by exact N.
  destruct (fc _) as [[[a b] s]|x]; reflexivity.
Qed.
Print Assumptions C89_wind_outcome.

Theorem C89_temperature cf mb fc lr pc e q q' : run_stat cf mb fc lr pc e q QTemp = (q', None) ->
  (exists v, observed q "temp" v) /\
  (exists lon lat tz, q_lon q = Some lon /\ q_lat q = Some lat /\ q_tz q = Some tz /\
     q_delta q' = Some (get_shift_by_data (record_of q "temp") lon lat tz)) /\
  q_tcourse q' = Some (mean_course (record_of q "temp") true) /\
  same_location q q' /\ same_record q q' /\ same_wind q q' /\ same_precip q q' /\ same_hum q q' /\ same_glob q q'.
Proof.
  cbn [run_stat]. unfold calc_temperature_stats, data_frame, record_of, observed. destruct (q_data q) as [d|] eqn:ED; [|discriminate]. cbn [bind]. unfold fcol.
  destruct (assoc "temp" (f_cols d)) as [v|] eqn:EV; [|discriminate]. cbn [bind].
  destruct (q_lon q) as [lon|] eqn:E1; [|discriminate]. destruct (q_lat q) as [lat|] eqn:E2; [|discriminate]. destruct (q_tz q) as [tz|] eqn:E3; [|discriminate].
  intro H. injection H as <-. split; [exists v, d; auto|]. split; [exists lon, lat, tz; repeat split|]. split; [reflexivity|].
  unfold same_record, same_location. cbn [with_temp q_data q_lon q_lat q_tz]. repeat split; congruence.
Qed.
Print Assumptions C89_temperature.

(** the pair a day contributes to the dew point regression: lowest temperature and mean dew point *)
Definition day_pair (ts ds : list R) (p : list (xr * xr)) : Prop :=
  ((ts = [] \/ ds = []) /\ p = []) \/ exists lo, is_min ts lo /\ ds <> [] /\ p = [(Fin lo, Fin (Rmean ds))].
Definition is_pairs (d0 : Z) (n : nat) (temp dew : Z -> xr) (ps : list (xr * xr)) : Prop :=
  exists parts, ps = concat parts /\
    Forall2 (fun i p => day_pair (fins (map (fun h => temp (stamp (d0 + Z.of_nat i) h)) (seq 0 24)))
                                 (fins (map (fun h => dew (stamp (d0 + Z.of_nat i) h)) (seq 0 24))) p) (seq 0 n) parts.
Lemma combine_map_id {A} (f : Z -> A) l : combine l (map f l) = map (fun t => (t, f t)) l.
Proof. induction l as [|t l IH]; [reflexivity|]. cbn. f_equal. exact IH. Qed.
Lemma combine_maps {A B C} (f : A -> B) (g : A -> C) l : combine (map f l) (map g l) = map (fun t => (f t, g t)) l.
Proof. induction l as [|t l IH]; [reflexivity|]. cbn. f_equal. exact IH. Qed.
Lemma hours_days d0 n : fold_right insert_label [] (map (fun t => date_of t * us_day) (hours_index d0 n)) = daily_index d0 n.
Proof.
  apply sorted_unique; [apply labels_sorted|apply daily_index_sorted|]. intro x. change (In x (labels_of (map (fun t => date_of t * us_day) (hours_index d0 n))) <-> In x (daily_index d0 n)). rewrite labels_In. split.
  - intro H. apply in_map_iff in H as (t & <- & H). unfold hours_index in H. apply grid_In in H as (k & Hk & ->). unfold daily_index. apply grid_In. exists (k / 24)%nat.
    split; [apply Nat.div_lt_upper_bound; lia|]. pose proof (Nat.div_mod k 24 ltac:(lia)). pose proof (Nat.mod_upper_bound k 24 ltac:(lia)).
    replace (d0 * us_day + Z.of_nat k * us_hour) with (stamp (d0 + Z.of_nat (k / 24)) (k mod 24)) by (unfold stamp, us_day, us_hour; lia).
    rewrite stamp_date by assumption. unfold us_day. lia.
  - intro H. unfold daily_index in H. apply grid_In in H as (k & Hk & ->). apply in_map_iff. exists (stamp (d0 + Z.of_nat k) 0). split; [rewrite stamp_date by lia; unfold us_day; lia|].
    apply hours_In; lia.
Qed.
Lemma pairs_of_record d d0 n (temp hum : Z -> xr) : f_index d = hours_index d0 n ->
  assoc "temp" (f_cols d) = Some (map temp (hours_index d0 n)) -> assoc "hum" (f_cols d) = Some (map hum (hours_index d0 n)) ->
  let dew := fun t => dewpoint1 (temp t) (hum t) in
  numeric (map temp (hours_index d0 n)) -> numeric (map dew (hours_index d0 n)) ->
  exists ps, dewpoint_pairs d = Ok ps /\ is_pairs d0 n temp dew ps.
Proof.
  intros EI ET EH dew NT ND. unfold dewpoint_pairs. rewrite ET, EH, EI. unfold dewpoint_temperature. rewrite !map_length, Nat.eqb_refl. cbn [bind].
  rewrite combine_maps, map_map. cbn [fst snd]. fold dew. rewrite !combine_map_id, hours_days.
  eexists. split; [reflexivity|].
  rewrite (resample_hours nanmean d0 n) by (rewrite map_map; apply map_id).
  set (tmin := map _ (daily_index d0 n)). set (tdew := map _ (seq 0 n)).
  assert (IM : index tmin = daily_index d0 n) by (unfold tmin, index; rewrite map_map; apply map_id).
  assert (IW : index tdew = daily_index d0 n).
  { unfold tdew, index, daily_index, grid. rewrite map_map. apply map_ext. intro i. cbn [fst]. unfold us_day. lia. }
  rewrite IM, IW, union_same by apply daily_index_sorted.
  assert (D : daily_index d0 n = map (fun i => (d0 + Z.of_nat i) * us_day) (seq 0 n)) by (unfold daily_index, grid; apply map_ext; intro i; unfold us_day; lia).
  rewrite D, flat_map_concat_map, map_map. eexists. split; [reflexivity|].
  assert (NV : forall f i, numeric (map f (hours_index d0 n)) -> (i < n)%nat -> numeric (map (fun h => f (stamp (d0 + Z.of_nat i) h)) (seq 0 24))).
  { clear. intros f i N Hi. unfold numeric in *. rewrite Forall_forall in *. intros x Hx. apply in_map_iff in Hx as (h & <- & Hh). apply in_seq in Hh. apply N, in_map, hours_In; lia. }
  assert (G : forall i, (i < n)%nat -> day_pair (fins (map (fun h => temp (stamp (d0 + Z.of_nat i) h)) (seq 0 24))) (fins (map (fun h => dew (stamp (d0 + Z.of_nat i) h)) (seq 0 24)))
     (match lookup ((d0 + Z.of_nat i) * us_day) tmin with
      | Some a => match lookup ((d0 + Z.of_nat i) * us_day) tdew with Some b => if n_isnan a || n_isnan b then [] else [(a, b)] | None => [] end
      | None => [] end)).
  { intros i Hi. specialize (NV temp i NT Hi) as N1. specialize (NV dew i ND Hi) as N2.
    unfold tmin. rewrite lookup_map_id by (rewrite D; apply in_map_iff; exists i; split; [reflexivity|apply in_seq; lia]).
    assert (L2 : lookup ((d0 + Z.of_nat i) * us_day) tdew = Some (nanmean (map (fun h => dew (stamp (d0 + Z.of_nat i) h)) (seq 0 24)))).
    { unfold tdew. rewrite <- (values_on_map_hours dew d0 n i Hi).
      assert (K : forall l, In i l -> lookup ((d0 + Z.of_nat i) * us_day) (map (fun i0 => ((d0 + Z.of_nat i0) * us_day, nanmean (values_on (d0 + Z.of_nat i0) (map (fun t => (t, dew t)) (hours_index d0 n))))) l)
                 = Some (nanmean (values_on (d0 + Z.of_nat i) (map (fun t => (t, dew t)) (hours_index d0 n))))).
      { clear. induction l as [|a l IH]; intro H; [destruct H|]. cbn [map lookup]. destruct (Z.eqb_spec ((d0 + Z.of_nat a) * us_day) ((d0 + Z.of_nat i) * us_day)) as [E|E].
        - assert (a = i) by (unfold us_day in E; lia). subst a. reflexivity.
        - apply IH. destruct H as [->|H]; [contradiction|exact H]. }
      apply K, in_seq. lia. }
    rewrite L2. rewrite (filter_ext (fun p : Z * xr => date_of (fst p) * us_day =? (d0 + Z.of_nat i) * us_day) (fun p => fst p / us_day =? d0 + Z.of_nat i)).
    2: { intros [t v]. cbn [fst]. unfold date_of. destruct (Z.eqb_spec (t / us_day) (d0 + Z.of_nat i)) as [->|E]; [apply Z.eqb_refl|]. apply Z.eqb_neq. unfold us_day in *. lia. }
    change (map snd (filter (fun p : Z * xr => fst p / us_day =? d0 + Z.of_nat i) (map (fun t => (t, temp t)) (hours_index d0 n)))) with (values_on (d0 + Z.of_nat i) (map (fun t => (t, temp t)) (hours_index d0 n))).
    rewrite (values_on_map_hours temp d0 n i Hi).
    set (ts := map (fun h => temp (stamp (d0 + Z.of_nat i) h)) (seq 0 24)) in *. set (ds := map (fun h => dew (stamp (d0 + Z.of_nat i) h)) (seq 0 24)) in *.
    destruct (fins ts) as [|a r] eqn:ET2.
    - left. split; [left; reflexivity|]. rewrite (proj1 (nanmin_empty ts N1 ET2)). reflexivity.
    - destruct (nanmin_numeric ts N1) as (lo & EL & IM2); [congruence|]. rewrite EL. cbn [n_isnan Num_xr xisnan orb].
      destruct (fins ds) as [|b r2] eqn:ED2.
      + left. split; [right; reflexivity|]. rewrite nanmean_empty by assumption. reflexivity.
      + right. exists lo. split; [rewrite <- ET2; exact IM2|]. split; [discriminate|]. rewrite nanmean_numeric by (try assumption; congruence). rewrite ED2. reflexivity. }
  clear - G. match goal with |- Forall2 _ _ (map ?f _) => set (F := f) end. fold F in G.
  assert (K : forall l, (forall i, In i l -> (i < n)%nat) -> Forall2 (fun i p => day_pair (fins (map (fun h => temp (stamp (d0 + Z.of_nat i) h)) (seq 0 24))) (fins (map (fun h => dew (stamp (d0 + Z.of_nat i) h)) (seq 0 24))) p) l (map F l)).
  { induction l as [|a l IH]; intro H; cbn [map]; constructor; [exact (G a (H a (or_introl eq_refl)))|apply IH; intros i Hi; apply H; right; exact Hi]. }
  apply K. intros i Hi. apply in_seq in Hi. lia.
Qed.
Theorem C89_humidity cf mb fc lr pc e q q' : run_stat cf mb fc lr pc e q QHum = (q', None) ->
  exists d ps slope intercept,
    q_data q = Some d /\ lr ps = Ok (slope, intercept) /\
    (forall d0 n temp hum, f_index d = hours_index d0 n ->
       assoc "temp" (f_cols d) = Some (map temp (hours_index d0 n)) -> assoc "hum" (f_cols d) = Some (map hum (hours_index d0 n)) ->
       let dew := fun t => dewpoint1 (temp t) (hum t) in
       numeric (map temp (hours_index d0 n)) -> numeric (map dew (hours_index d0 n)) -> is_pairs d0 n temp dew ps) /\
    q_a1 q' = Some slope /\ q_a0 q' = Some intercept /\ q_kr q' = Some 12 /\
    (exists tbl, calculate_month_hour_precip_mean d = Ok tbl /\ q_mhp q' = Some tbl) /\
    same_location q q' /\ same_record q q' /\ same_wind q q' /\ same_precip q q' /\ same_temp q q' /\ same_glob q q'.
Proof.
  cbn [run_stat]. unfold calc_humidity_stats, data_frame. destruct (q_data q) as [d|] eqn:ED; [|discriminate]. cbn [bind].
  destruct (dewpoint_pairs d) as [ps|x] eqn:EP; [|discriminate]. cbn [bind]. destruct (lr ps) as [[slope icept]|x] eqn:EL; [|discriminate].
  cbn [with_hum q_data]. rewrite ED. cbn [bind]. destruct (calculate_month_hour_precip_mean d) as [tbl|x] eqn:EM; [|discriminate].
  intro H. injection H as <-. exists d, ps, slope, icept. split; [reflexivity|]. split; [exact EL|]. split; [|].
  - cbv zeta. intros d0 n temp hum EI ET EH NT ND. destruct (pairs_of_record d d0 n temp hum EI ET EH NT ND) as (ps' & E' & IP). rewrite EP in E'. injection E' as <-. exact IP.
  - split; [reflexivity|]. split; [reflexivity|]. split; [reflexivity|]. split; [exists tbl; split; [exact EM|reflexivity]|].
    unfold same_record. cbn [with_hum q_data]. repeat split; congruence.
Qed.
Print Assumptions C89_humidity.
(** the assignment of the hourly record: accepted is a data frame with time stamps on full hours, not
    all of them at midnight; anything else raises an AssertionError and changes nothing *)
Theorem C89_data cf mb fc lr pc e q v :
  let hourly (f : pframe) := p_datetime f = true /\ (forall t, In t (f_index (p_data f)) -> t mod us_hour = 0) /\ (exists t, In t (f_index (p_data f)) /\ t mod us_day <> 0) in
  (forall f, v = VFrame f -> hourly f -> exists q', run_stat cf mb fc lr pc e q (QData v) = (q', None) /\ q_data q' = Some (p_data f) /\
     same_location q q' /\ same_wind q q' /\ same_precip q q' /\ same_hum q q' /\ same_temp q q' /\ same_glob q q') /\
  ((forall f, v = VFrame f -> ~ hourly f) -> run_stat cf mb fc lr pc e q (QData v) = (q, Some AssertionError)).
Proof.
  intro hourly. assert (HR : forall idx, hour_resolution idx = true <-> (forall t, In t idx -> t mod us_hour = 0) /\ exists t, In t idx /\ t mod us_day <> 0).
  { intro idx. unfold hour_resolution, day_resolution. rewrite andb_true_iff, negb_true_iff, forallb_forall. split; intros [A B].
    - split; [intros t Ht; apply Z.eqb_eq, A, Ht|]. clear A. induction idx as [|t idx IH]; [discriminate|]. cbn [forallb] in B. destruct (Z.eqb_spec (t mod us_day) 0) as [E|E]; [|exists t; split; [left; reflexivity|exact E]].
      destruct (IH B) as (u & U1 & U2). exists u. split; [right; exact U1|exact U2].
    - split; [intros t Ht; apply Z.eqb_eq, A, Ht|]. destruct B as (t & T1 & T2). apply not_true_iff_false. rewrite forallb_forall. intro K. apply T2, Z.eqb_eq, K, T1. }
  cbn [run_stat]. unfold set_data. split.
  - intros f -> (D & H). apply HR in H. rewrite D, H. cbn [negb]. eexists. split; [reflexivity|]. repeat split.
  - intro NH. destruct v as [f|]; [|reflexivity]. destruct (p_datetime f) eqn:D; [|reflexivity]. cbn [negb]. destruct (hour_resolution _) eqn:R; [|reflexivity].
    exfalso. apply (NH f eq_refl). split; [exact D|]. apply HR, R.
Qed.
Print Assumptions C89_data.
Theorem C89_radiation cf mb fc lr pc e q q' dd dl how err : run_stat cf mb fc lr pc e q (QRad dd dl how) = (q', err) ->
  same_location q q' /\ same_record q q' /\ same_wind q q' /\ same_precip q q' /\ same_hum q q' /\ same_temp q q'.
Proof.
  cbn [run_stat]. unfold st_radiation_stats. destruct (calc_radiation_stats _ _ _ _ _ _ _ _ _ _ _) as [g er]. intro H. injection H as <- _. repeat split.
Qed.
Print Assumptions C89_radiation.

(** ** precipitation *)
Definition one_season : list (option (list Z)) := [Some [1; 2; 3; 4; 5; 6; 7; 8; 9; 10; 11; 12]].
Definition seasons_arg (months : option (list (option (list Z)))) := match months with None => one_season | Some l => l end.
(** the statistics of a season: one set per level, or their means weighted with the lengths *)
Definition is_season (avg : bool) (ls : list (casc xr * nat)) (arg : casc_arg xr) : Prop :=
  if avg then
    exists c, arg = COne c /\ map (fun x => [x]) (threshold c) = map (fun l => threshold (fst l)) ls /\
      (forall b t xs, map (fun l => p01 (fst l) b t) ls = map Fin xs -> p01 c b t = Fin (wmean xs (map snd ls))) /\
      (forall b t xs, map (fun l => p10 (fst l) b t) ls = map Fin xs -> p10 c b t = Fin (wmean xs (map snd ls))) /\
      (forall b t xs, map (fun l => pxx (fst l) b t) ls = map Fin xs -> pxx c b t = Fin (wmean xs (map snd ls))) /\
      (forall k b t xs, map (fun l => wxx (fst l) k b t) ls = map Fin xs -> wxx c k b t = Fin (wmean xs (map snd ls)))
  else arg = CList (map fst ls).
Lemma nan0_xr : n_isnan (n0 : xr) = false.
Proof. rewrite n0_xr. reflexivity. Qed.
Lemma wf_empty : wf (T := xr) {| arrs := []; objs := [] |}.
Proof. intros n Hn. cbn in Hn. lia. Qed.
Lemma precip_stats_shape cf mb fc lr pc e q months avg perc d v : q_data q = Some d -> assoc "precip" (f_cols d) = Some v ->
  (forall mo, hd_error (seasons_arg months) = Some mo -> mo <> Some []) -> seasons_arg months <> [] ->
  run_stat cf mb fc lr pc e q (QPrecip months avg perc) =
    match build_casc (pc perc) perc true 9 avg (Some (seasons_arg months)) {| arrs := []; objs := [] |} (combine (f_index d) v) with
    | Err x => (with_precip q (Some (put_column "precip" (values (fillna0 (combine (f_index d) v))) d)) (Some (seasons_arg months)) (q_casc q), Some x)
    | Ok (h, obs, out) => (with_precip q (Some (put_column "precip" (values obs) d)) (Some (seasons_arg months)) (Some (map (season_arg h) out)), None)
    end.
Proof.
  intros QD QV F NE. cbn [run_stat]. unfold calc_precipitation_stats. fold all_months. change [Some all_months] with one_season. fold (seasons_arg months).
  destruct (seasons_arg months) as [|m ms]; [congruence|]. rewrite QD, QV. specialize (F m eq_refl). destruct m as [[|]|]; [congruence|reflexivity..].
Qed.
Theorem C89_precipitation cf mb fc lr pc e q q' months avg perc z : pc perc = np_percentile z -> months <> Some [] ->
  run_stat cf mb fc lr pc e q (QPrecip months avg perc) = (q', None) ->
  let ms := seasons_arg months in
  q_months q' = Some ms /\
  (exists d obs stats, q_data q = Some d /\ assoc "precip" (f_cols d) = Some obs /\ q_casc q' = Some stats /\ length stats = length ms /\
     q_data q' = Some (put_column "precip" (map snd (season_data (length ms) (combine (f_index d) obs))) d) /\
     forall k mo, nth_error ms k = Some mo ->
       exists sub ls arg, seasonal_subset (season_data k (combine (f_index d) obs)) mo = Ok sub /\
         levels_of (np_percentile z) perc 5 sub ls /\ nth_error stats k = Some arg /\ is_season avg ls arg) /\
  same_location q q' /\ same_wind q q' /\ same_hum q q' /\ same_temp q q' /\ same_glob q q'.
Proof.
  intros HP NM. set (ms := seasons_arg months). assert (NE : ms <> []) by (subst ms; destruct months as [[|]|]; cbn; [congruence|discriminate|discriminate]).
  intro RS. assert (F : forall mo, hd_error ms = Some mo -> mo <> Some []).
  { intros mo HD ->. revert RS. cbn [run_stat]. unfold calc_precipitation_stats. fold all_months. change [Some all_months] with one_season. fold (seasons_arg months). fold ms.
    destruct ms as [|m r]; [discriminate HD|]. cbn in HD. injection HD as ->. discriminate. }
  destruct (q_data q) as [d|] eqn:ED.
  2: { exfalso. revert NE RS. cbn [run_stat]. unfold calc_precipitation_stats. fold all_months. change [Some all_months] with one_season. fold (seasons_arg months). fold ms.
       rewrite ED. destruct ms as [|[[|]|] r]; [congruence|intro X; discriminate..]. }
  destruct (assoc "precip" (f_cols d)) as [obs|] eqn:EO.
  2: { exfalso. revert NE RS. cbn [run_stat]. unfold calc_precipitation_stats. fold all_months. change [Some all_months] with one_season. fold (seasons_arg months). fold ms.
       rewrite ED, EO. destruct ms as [|[[|]|] r]; [congruence|intro X; discriminate..]. }
  rewrite (precip_stats_shape cf mb fc lr pc e q months avg perc d obs ED EO F NE) in RS. fold ms in RS. rewrite HP in RS. set (rec := combine (f_index d) obs) in *.
  destruct (build_casc _ _ _ _ _ _ _ _) as [[[h' obs'] sts]|x] eqn:EB; [|discriminate]. injection RS as <-. cbv zeta. split; [reflexivity|].
  split; [|repeat split].
  destruct (build_char z perc true 9 avg (Some ms) _ rec h' obs' sts nan0_xr wf_empty EB) as (EO' & LS & _ & C). cbn [seasons_of] in *.
  exists d, obs, (map (season_arg h') sts). split; [reflexivity|]. split; [exact EO|]. split; [reflexivity|]. split; [rewrite map_length; exact LS|]. split; [rewrite EO'; reflexivity|].
  intros k mo HK. destruct avg.
  - destruct (C18_weighted_means z perc true 9 (Some ms) _ rec h' obs' sts wf_empty EB k mo HK) as (o & sub & ls & E1 & E2 & E3 & E4).
    exists sub, ls, (COne (read_casc h' o)). split; [exact E2|]. split; [exact E3|]. split; [rewrite nth_error_map, E1; reflexivity|]. cbn [is_season]. eexists. split; [reflexivity|]. exact E4.
  - destruct (C19_levels_undisturbed z perc true 9 (Some ms) _ rec h' obs' sts nan0_xr wf_empty EB) as [_ L]. destruct (L k mo HK) as (os & sub & ls & E1 & E2 & E3 & E4).
    exists sub, ls, (CList (map (read_casc h') os)). split; [exact E2|]. split; [exact E3|]. split; [rewrite nth_error_map, E1; reflexivity|]. cbn [is_season]. rewrite E4. reflexivity.
Qed.
Print Assumptions C89_precipitation.
(** no season at all: no statistics, whatever the record *)
Theorem C89_no_season cf mb fc lr pc e q avg perc : exists q',
  run_stat cf mb fc lr pc e q (QPrecip (Some []) avg perc) = (q', None) /\
  q_months q' = Some [] /\ q_casc q' = Some [] /\ q_data q' = q_data q /\
  same_location q q' /\ same_wind q q' /\ same_hum q q' /\ same_temp q q' /\ same_glob q q'.
Proof. eexists. split; [reflexivity|]. repeat split. Qed.
Print Assumptions C89_no_season.

(** a calibration record of two days; the third hour of each day lacks the wind *)
Definition ex_wind (t : Z) : xr := if hour_of t =? 2 then NaN else Fin (2 + IZR (date_of t)).
Definition ex_temp (t : Z) : xr := Fin (280 + IZR (hour_of t)).
Definition ex_frame : dframe xr :=
  Build_dframe (hours_index 0 2) [("wind"%string, map ex_wind (hours_index 0 2)); ("temp"%string, map ex_temp (hours_index 0 2));
    ("hum"%string, map (fun _ => Fin 60) (hours_index 0 2)); ("precip"%string, map (fun _ => Fin 1) (hours_index 0 2))].
Definition ex_calib : sstats := fst (run_stat (fun _ => Err ValueError) (fun _ => Err ValueError) (fun _ => Err ValueError) (fun _ => Err ValueError) (fun _ _ => Err ValueError)
  modern (new_stats (Some (Fin 11)) (Some (Fin 47)) (Some (Fin 1))) (QData (VFrame {| p_datetime := true; p_freq := false; p_data := ex_frame |}))).
Example C89_data_met cf mb fc lr pc : run_stat cf mb fc lr pc modern (new_stats (Some (Fin 11)) (Some (Fin 47)) (Some (Fin 1))) (QData (VFrame {| p_datetime := true; p_freq := false; p_data := ex_frame |})) = (ex_calib, None).
Proof. reflexivity. Qed.
Lemma ex_record name v : assoc name (f_cols ex_frame) = Some v -> record_of ex_calib name = combine (hours_index 0 2) v.
Proof. intro E. unfold record_of. change (q_data ex_calib) with (Some ex_frame). cbv iota. rewrite E. reflexivity. Qed.
Example C89_wind_met cf mb lr pc : let fc := fun _ => Ok (Fin 1, Fin 2, Fin 3) in
  exists q', run_stat cf mb fc lr pc modern ex_calib QWind = (q', None) /\ numeric (map snd (record_of ex_calib "wind")) /\
             In (Fin 3, 1, Fin 3) (wind_rows (record_of ex_calib "wind")) /\ ~ (exists r v, In (r, 2, v) (wind_rows (record_of ex_calib "wind"))).
Proof.
  cbv zeta. eexists. split; [reflexivity|]. rewrite (ex_record "wind" (map ex_wind (hours_index 0 2)) eq_refl), combine_map_id. split; [|split].
  - rewrite map_map. cbn [snd]. unfold numeric. apply Forall_forall. intros x Hx. apply in_map_iff in Hx as (t & <- & _). unfold ex_wind. destruct (hour_of t =? 2); exact I.
  - unfold wind_rows. apply in_flat_map. exists (stamp 1 1, ex_wind (stamp 1 1)). split; [apply in_map_iff; exists (stamp 1 1); split; [reflexivity|apply (hours_In 0 2 1 1); lia]|].
    cbn [fst snd]. unfold ex_wind at 1. rewrite stamp_hour, stamp_date by lia. change (Z.of_nat 1 =? 2) with false. cbn iota. left.
    pose proof (values_on_map_hours ex_wind 0 2 1 ltac:(lia)) as VM. change (0 + Z.of_nat 1) with 1 in VM. rewrite VM. clear VM.
    replace (map (fun h => ex_wind (stamp 1 h)) (seq 0 24)) with ([Fin 3; Fin 3; NaN] ++ repeat (Fin 3) 21).
    + assert (RM : Rmean (fins ([Fin 3; Fin 3; NaN] ++ repeat (Fin 3) 21)) = 3%R) by (unfold Rmean; cbn; lra). rewrite RM. replace (2 + 1)%R with 3%R by lra. reflexivity.
    + cbn [seq map repeat app]. unfold ex_wind. rewrite !stamp_hour, !stamp_date by lia. cbn [Z.of_nat Pos.of_succ_nat Pos.succ Z.eqb Pos.eqb Z.add]. repeat (f_equal; try lra).
  - intros (r & v & H). unfold wind_rows in H. apply in_flat_map in H as ([t w] & H & K). apply in_map_iff in H as (u & E & _). injection E as -> <-. cbn [fst snd] in K.
    unfold ex_wind at 1 in K. destruct (Z.eqb_spec (hour_of t) 2) as [E|N]; [destruct K|]. destruct K as [K|[]]. injection K as _ K _. contradiction.
Qed.
Example C89_temperature_met cf mb fc lr pc : exists q', run_stat cf mb fc lr pc modern ex_calib QTemp = (q', None).
Proof. eexists. reflexivity. Qed.
Lemma ex_mhp : exists tbl, calculate_month_hour_precip_mean ex_frame = Ok tbl.
Proof.
  destruct (C76_table ex_frame (map (fun _ => Fin 1) (hours_index 0 2)) (map (fun _ => Fin 60) (hours_index 0 2))) as (tbl & E & _); [reflexivity..| | |exists tbl; exact E];
  unfold numeric; apply Forall_forall; intros x Hx; apply in_map_iff in Hx as (t & <- & _); exact I.
Qed.
Example C89_humidity_met cf mb fc pc : let lr := fun _ => Ok (Fin 1, Fin (-3)) in
  exists q', run_stat cf mb fc lr pc modern ex_calib QHum = (q', None).
Proof.
  cbv zeta. cbn [run_stat]. unfold calc_humidity_stats, data_frame. change (q_data ex_calib) with (Some ex_frame). cbn [bind].
  destruct (dewpoint_pairs ex_frame) as [ps|x] eqn:E.
  - cbn [bind with_hum q_data]. change (q_data ex_calib) with (Some ex_frame). cbn [bind]. destruct ex_mhp as (tbl & ->). eexists. reflexivity.
  - exfalso. unfold dewpoint_pairs in E. change (assoc "temp" (f_cols ex_frame)) with (Some (map ex_temp (hours_index 0 2))) in E.
    change (assoc "hum" (f_cols ex_frame)) with (Some (map (fun _ : Z => Fin 60) (hours_index 0 2))) in E. unfold dewpoint_temperature in E. rewrite !map_length, Nat.eqb_refl in E. discriminate E.
Qed.
