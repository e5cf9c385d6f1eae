(** Property C95: radiation at a station. *)
From Coq Require Import String ZArith List Bool Reals Sorted Lia Lra.
From Verif Require Import Py Num Cal Series Frame SpecBase TimeProofs IndexProofs DaysProofs UtilModel Trans UtilModel2 SpecUtil UtilProofs SpecTemp TempProofs CourseProofs TempCourse
  RadModel SpecRad RadProofs RadBC RadPot RadStats PropsRad StationModel SpecStation StationProofs StationCascade PropsStation2 PropsStation3 PropsTemp PropsUtil PropsStation4 SpecSky.
Import ListNotations.
Open Scope Z_scope.

Lemma sky_hour doy h lon lat tz : (sun_height doy h 0 lon lat tz < 1)%R ->
  let p := potential_radiation1 doy h 0 (Fin lon) (Fin lat) (Fin tz) (Fin 0) (Fin 0) (Fin 0) in
  (fst p + snd p)%num = Fin (clear_sky doy h lon lat tz).
Proof.
  intros H p. unfold p. pose proof (pot_flat doy h 0 lon lat tz 0 0 H) as E. cbv zeta in E. rewrite E. cbn [fst snd]. rewrite xadd_Fin. f_equal.
  unfold clear_sky, day_height. pose proof (sun_ratio_bounds doy) as RB. set (c := Rmax 0 (sun_height doy h 0 lon lat tz)). assert (0 <= c)%R by apply Rmax_l.
  rewrite Rmax_right; [ring|]. repeat apply Rmult_le_pos; lra.
Qed.
Lemma sky_nonneg doy h lon lat tz : (0 <= clear_sky doy h lon lat tz)%R.
Proof.
  unfold clear_sky, day_height. pose proof (sun_ratio_bounds doy). set (c := Rmax 0 (sun_height doy h 0 lon lat tz)). assert (0 <= c)%R by apply Rmax_l. repeat apply Rmult_le_pos; lra.
Qed.
Lemma sky_pos doy h lon lat tz : (0 < sun_height doy h 0 lon lat tz)%R -> (0 < clear_sky doy h lon lat tz)%R.
Proof.
  intro H. unfold clear_sky, day_height. pose proof (sun_ratio_bounds doy). rewrite Rmax_right by lra. repeat apply Rmult_lt_0_compat; lra.
Qed.
Lemma sky_day_nonneg day lon lat tz x : In x (sky_day day lon lat tz) -> (0 <= x)%R.
Proof. unfold sky_day. intro H. apply in_map_iff in H as (h & <- & _). apply sky_nonneg. Qed.
Lemma sky_day_mean day lon lat tz : ordinary_day day lon lat tz -> (0 < Rmean (sky_day day lon lat tz))%R.
Proof.
  intros [_ (h & Hh & P)]. apply sky_pos in P. assert (I : In (clear_sky (doy_of_day day) (Z.of_nat h) lon lat tz) (sky_day day lon lat tz)).
  { unfold sky_day. apply in_map_iff. exists h. split; [reflexivity|apply in_seq; lia]. }
  pose proof (sky_day_nonneg day lon lat tz) as N. unfold Rmean. apply Rmult_lt_0_compat.
  - revert I N. generalize (sky_day day lon lat tz). intro l. induction l as [|y l IH]; intros I N; [destruct I|]. unfold Rsum in *. cbn [fold_right].
    assert (K : (0 <= fold_right Rplus 0 l)%R).
    { assert (N' : forall z, In z l -> (0 <= z)%R) by (intros z Hz; apply N; right; exact Hz). clear -N'. induction l as [|z l IH]; cbn; [lra|].
      pose proof (N' z (or_introl eq_refl)). specialize (IH (fun w Hw => N' w (or_intror Hw))). lra. }
    pose proof (N y (or_introl eq_refl)). destruct I as [->|I]; [lra|]. specialize (IH I (fun z Hz => N z (or_intror Hz))). lra.
  - apply Rinv_0_lt_compat. unfold sky_day. rewrite map_length, seq_length. cbn [INR]. lra.
Qed.
Lemma sky_values d0 n lon lat tz i : (i < n)%nat -> ordinary_day (d0 + Z.of_nat i) lon lat tz ->
  values_on (d0 + Z.of_nat i) (potential_radiation (hours_index d0 n) (Fin lon) (Fin lat) (Fin tz) n0 n0 n0) = map Fin (sky_day (d0 + Z.of_nat i) lon lat tz).
Proof.
  intros Hi [HN _]. rewrite !n0_xr.
  set (P := fun t => potential_radiation1 (doy_of_day (date_of t)) (hour_of t) (minute_of t) (Fin lon) (Fin lat) (Fin tz) (Fin 0) (Fin 0) (Fin 0)).
  assert (EQ : potential_radiation (hours_index d0 n) (Fin lon) (Fin lat) (Fin tz) (Fin 0) (Fin 0) (Fin 0) = map (fun t => (t, (fst (P t) + snd (P t))%num)) (hours_index d0 n)).
  { unfold potential_radiation, potential_split. rewrite map_map. reflexivity. }
  rewrite EQ, (values_on_map_hours (fun t => (fst (P t) + snd (P t))%num) d0 n i Hi). unfold sky_day. rewrite map_map. apply map_ext_in. intros h Hh. apply in_seq in Hh.
  unfold P. rewrite stamp_date, stamp_hour, stamp_minute by lia. apply sky_hour. apply HN. lia.
Qed.
Lemma sky_index (hs : list Z) lon lat tz : map fst (potential_radiation hs lon lat tz n0 n0 n0) = hs.
Proof. unfold potential_radiation, potential_split. rewrite !map_map. apply map_id. Qed.

(** a station at a place, whose sun times are those of the place (or not computed yet) *)
Definition placed (st : station) (d0 : Z) (n : nat) (lon lat tz : R) : Prop :=
  s_lon st = Some (Fin lon) /\ s_lat st = Some (Fin lat) /\ s_tz st = Some (Fin tz) /\
  (s_sun st = None \/ s_sun st = Some (get_sun_times (daily_index d0 n) (Fin lon) (Fin lat) (Fin tz))).
Lemma radiation_runs e q st d0 n dd lon lat tz method out : ready st d0 n dd -> placed st d0 n lon lat tz -> 
  disaggregate_radiation e dd (Some (get_sun_times (daily_index d0 n) (Fin lon) (Fin lat) (Fin tz)))
    (if String.eqb method "mean_course" then None else Some (potential_radiation (hours_index d0 n) (Fin lon) (Fin lat) (Fin tz) n0 n0 n0)) method
    (glob_params (g_angstroem (q_glob q))) (glob_params (g_bristcamp (q_glob q))) (g_course (q_glob q)) = Ok out ->
  map fst out = hours_index d0 n ->
  exists st', st_radiation e q st method None = (st', None) /\ ready st' d0 n dd /\
    (forall day, hourly_on st' "glob" day = values_on day out) /\ (forall c, c <> "glob"%string -> hourly_column st' c = hourly_column st c) /\
    s_sun st' = Some (get_sun_times (daily_index d0 n) (Fin lon) (Fin lat) (Fin tz)).
Proof.
  intros RD (P1 & P2 & P3 & P4) ED EI.
  set (st1 := with_sun st (Some (get_sun_times (daily_index d0 n) (Fin lon) (Fin lat) (Fin tz)))).
  assert (RD1 : ready st1 d0 n dd) by exact RD.
  assert (E1 : (match s_sun st with None => calc_sun_times st | Some _ => (st, None) end) = (st1, None)).
  { destruct P4 as [P4|P4]; rewrite P4.
    - unfold calc_sun_times. destruct RD as (_ & -> & EX & _). rewrite P1, P2, P3, EX. reflexivity.
    - f_equal. unfold st1. destruct st. cbn in P4 |- *. rewrite P4. reflexivity. }
  destruct (put_series_ready st1 d0 n dd "glob" out RD1) as (st' & ES & RD' & _ & HO & HC); [cbn; auto|exact EI|].
  exists st'. split.
  { unfold st_radiation. rewrite E1. destruct RD1 as (_ & DD & _ & d & DG & DX & _). rewrite DG. change (s_lon st1) with (s_lon st). change (s_lat st1) with (s_lat st). change (s_tz st1) with (s_tz st).
    rewrite P1, P2, P3, DX. match goal with |- finish _ (bind ?p _) _ = _ => replace p with (Ok (if String.eqb method "mean_course" then None else Some (potential_radiation (hours_index d0 n) (Fin lon) (Fin lat) (Fin tz) n0 n0 n0))) by (destruct (String.eqb method "mean_course"); reflexivity) end.
    cbn [bind]. unfold daily_frame. rewrite DD. cbn [bind]. change (s_sun st1) with (Some (get_sun_times (daily_index d0 n) (Fin lon) (Fin lat) (Fin tz))).
    rewrite ED. cbn [finish]. exact ES. }
  split; [exact RD'|]. split; [exact HO|]. split; [exact HC|].
  unfold put_series in ES. destruct (s_disagg st1); [|discriminate]. repeat match type of ES with (if ?b then _ else _) = _ => destruct b end; try discriminate; injection ES as <-; reflexivity.
Qed.

(** 'pot_rad': the day's mean with the shape of the clear sky of the station's own place *)
Theorem C95_own_sky e q st d0 n dd gl lon lat tz : ready st d0 n dd -> placed st d0 n lon lat tz -> has_column dd "glob" gl ->
  exists st', st_radiation e q st "pot_rad" None = (st', None) /\ ready st' d0 n dd /\ (forall c, c <> "glob"%string -> hourly_column st' c = hourly_column st c) /\
    forall i g, nth_error gl i = Some (Fin g) -> (0 <= g)%R -> ordinary_day (d0 + Z.of_nat i) lon lat tz ->
      exists vals, hourly_on st' "glob" (d0 + Z.of_nat i) = map Fin vals /\ shaped (sky_day (d0 + Z.of_nat i) lon lat tz) g vals.
Proof.
  intros RD PL C. assert (F : day_frame dd d0 n) by (split; [apply RD|apply RD]).
  destruct (column_daily dd d0 n "glob" gl F C) as [_ L].
  set (pot := potential_radiation (hours_index d0 n) (Fin lon) (Fin lat) (Fin tz) n0 n0 n0).
  destruct (radiation_runs e q st d0 n dd lon lat tz "pot_rad" _ RD PL (rad_pot e dd d0 n gl _ pot _ _ _ F C)) as (st' & E1 & E2 & E3 & E4 & _).
  { rewrite scale_index. apply sky_index. }
  exists st'. split; [exact E1|]. split; [exact E2|]. split; [exact E4|]. intros i g EG HG OD.
  assert (Hi : (i < n)%nat) by (rewrite <- L; apply nth_error_Some; congruence).
  destruct (C41_potential_shape e dd d0 n gl (s_sun st') pot (PScalar n0 n0) (PScalar n0 n0) None i (sky_day (d0 + Z.of_nat i) lon lat tz) g F C (sky_index _ _ _ _) Hi
    (sky_values d0 n lon lat tz i Hi OD) (sky_day_nonneg _ _ _ _) (sky_day_mean _ _ _ _ OD) EG HG) as (out & vals & O1 & _ & O2 & O3).
  rewrite (rad_pot e dd d0 n gl _ pot _ _ _ F C) in O1. injection O1 as O1. rewrite <- O1 in O2. exists vals. split; [rewrite E3; exact O2|exact O3].
Qed.
Print Assumptions C95_own_sky.

(** [station.sun_times.daylength] of a day *)
Definition sun_length (st : station) (day : Z) (dl : R) : Prop :=
  exists tbl row, s_sun st = Some tbl /\ entry_of (day * us_day) tbl = Some row /\ daylength row = Fin dl.
(** a row for every month *)
Definition full_table (tbl : list (Z * (xr * xr))) : Prop := forall m, 1 <= m <= 12 -> exists v, entry_of m tbl = Some v.
Definition col_a (tbl : list (Z * (xr * xr))) (m : Z) : xr := match entry_of m tbl with Some v => fst v | None => NaN end.
Definition col_b (tbl : list (Z * (xr * xr))) (m : Z) : xr := match entry_of m tbl with Some v => snd v | None => NaN end.
Lemma entry_map {A B} (f : A -> B) k l : entry_of k (map (fun p => (fst p, f (snd p))) l) = match entry_of k l with Some v => Some (f v) | None => None end.
Proof. induction l as [|[x v] l IH]; [reflexivity|]. cbn. destruct (x =? k); [reflexivity|exact IH]. Qed.
Lemma params_of tbl : full_table tbl -> params_for (glob_params tbl) (col_a tbl) (col_b tbl).
Proof.
  intros H m Hm. destruct (H m Hm) as [v E]. unfold col_a, col_b. rewrite E. rewrite (entry_map fst), (entry_map snd), E. split; reflexivity.
Qed.
Lemma sun_table_days d0 n lon lat tz : map fst (get_sun_times (daily_index d0 n) lon lat tz) = daily_index d0 n.
Proof. unfold get_sun_times. rewrite map_map. apply map_id. Qed.
Lemma length_at st d0 n lon lat tz i dl : (i < n)%nat -> s_sun st = Some (get_sun_times (daily_index d0 n) lon lat tz) -> sun_length st (d0 + Z.of_nat i) dl ->
  nth_error (map (fun r => daylength (snd r)) (get_sun_times (daily_index d0 n) lon lat tz)) i = Some (Fin dl).
Proof.
  intros Hi E (tbl & row & E1 & E2 & E3). rewrite E in E1. apply (f_equal (fun x => match x with Some t => t | None => [] end)) in E1. subst tbl.
  rewrite entry_lookup in E2. unfold get_sun_times in *.
  assert (NE : nth_error (daily_index d0 n) i = Some ((d0 + Z.of_nat i) * us_day)).
  { unfold daily_index, grid. rewrite nth_error_map, nth_error_nth' with (d := O) by (rewrite seq_length; exact Hi). rewrite seq_nth by exact Hi. cbn. f_equal. lia. }
  rewrite (lookup_map_id (fun t => sun_times1 (doy_of_day (date_of t)) lon lat tz)) in E2 by (eapply nth_error_In; exact NE).
  injection E2 as E2. rewrite map_map, nth_error_map, NE. cbn [option_map snd]. rewrite E2, E3. reflexivity.
Qed.

(** 'pot_rad_via_ssd': the parameters of the day's own month, and the day length of the station's own place *)
Theorem C95_sunshine e q st d0 n dd ssd lon lat tz : ready st d0 n dd -> placed st d0 n lon lat tz -> has_column dd "ssd" ssd ->
  full_table (g_angstroem (q_glob q)) ->
  exists st', st_radiation e q st "pot_rad_via_ssd" None = (st', None) /\ ready st' d0 n dd /\ (forall c, c <> "glob"%string -> hourly_column st' c = hourly_column st c) /\
    s_sun st' = Some (get_sun_times (daily_index d0 n) (Fin lon) (Fin lat) (Fin tz)) /\
    forall i s dl a b, nth_error ssd i = Some (Fin s) -> sun_length st' (d0 + Z.of_nat i) dl -> (0 < dl)%R -> (0 <= s <= dl)%R -> ordinary_day (d0 + Z.of_nat i) lon lat tz ->
      entry_of (month_of_day (d0 + Z.of_nat i)) (g_angstroem (q_glob q)) = Some (Fin a, Fin b) -> (0 <= a)%R -> (0 <= b)%R ->
      exists vals, hourly_on st' "glob" (d0 + Z.of_nat i) = map Fin vals /\
        shaped (sky_day (d0 + Z.of_nat i) lon lat tz) ((a + b * (s / dl)) * Rmean (sky_day (d0 + Z.of_nat i) lon lat tz)) vals.
Proof.
  intros RD PL C FT. assert (F : day_frame dd d0 n) by (split; [apply RD|apply RD]).
  destruct (column_daily dd d0 n "ssd" ssd F C) as [_ L].
  set (pot := potential_radiation (hours_index d0 n) (Fin lon) (Fin lat) (Fin tz) n0 n0 n0).
  set (sun := get_sun_times (daily_index d0 n) (Fin lon) (Fin lat) (Fin tz)).
  pose proof (rad_ssd e dd d0 n ssd sun pot _ _ _ (glob_params (g_bristcamp (q_glob q))) (g_course (q_glob q)) F C (sun_table_days _ _ _ _ _) (sky_index _ _ _ _) (params_of _ FT)) as RS.
  destruct (radiation_runs e q st d0 n dd lon lat tz "pot_rad_via_ssd" _ RD PL RS) as (st' & E1 & E2 & E3 & E4 & E5).
  { rewrite scale_index. apply sky_index. }
  exists st'. split; [exact E1|]. split; [exact E2|]. split; [exact E4|]. split; [exact E5|]. intros i s dl a b ES EL DP HS OD EP HA HB.
  assert (Hi : (i < n)%nat) by (rewrite <- L; apply nth_error_Some; congruence).
  destruct (C44_via_ssd e dd d0 n ssd sun pot _ _ _ (glob_params (g_bristcamp (q_glob q))) (g_course (q_glob q)) i (sky_day (d0 + Z.of_nat i) lon lat tz) s dl a b F C (sun_table_days _ _ _ _ _) (sky_index _ _ _ _) (params_of _ FT) Hi
    (sky_values d0 n lon lat tz i Hi OD) (sky_day_nonneg _ _ _ _) (sky_day_mean _ _ _ _ OD) ES (length_at st' d0 n _ _ _ i dl Hi E5 EL) DP HS) as (out & vals & g & O1 & _ & O2 & O3 & O4 & _);
    [unfold col_a; rewrite EP; reflexivity|unfold col_b; rewrite EP; reflexivity|exact HA|exact HB|].
  rewrite RS in O1. injection O1 as O1. rewrite <- O1 in O2. exists vals. split; [rewrite E3; exact O2|rewrite <- O4; exact O3].
Qed.
Print Assumptions C95_sunshine.

(** 'pot_rad_via_bc' *)
Theorem C95_temperature e q st d0 n dd tmin tmax lon lat tz : ready st d0 n dd -> placed st d0 n lon lat tz -> has_column dd "tmin" tmin -> has_column dd "tmax" tmax ->
  numeric tmin -> numeric tmax -> full_table (g_bristcamp (q_glob q)) ->
  exists st', st_radiation e q st "pot_rad_via_bc" None = (st', None) /\ ready st' d0 n dd /\ (forall c, c <> "glob"%string -> hourly_column st' c = hourly_column st c) /\
    forall i dt A C, (i < n)%nat -> day_dT tmin tmax i = Some dt -> (0 <= dt)%R -> ordinary_day (d0 + Z.of_nat i) lon lat tz ->
      entry_of (month_of_day (d0 + Z.of_nat i)) (g_bristcamp (q_glob q)) = Some (Fin A, Fin C) -> (0 <= A)%R -> (0 < C)%R ->
      exists vals, hourly_on st' "glob" (d0 + Z.of_nat i) = map Fin vals /\
        shaped (sky_day (d0 + Z.of_nat i) lon lat tz)
          (bc_R A C (Rmean (month_dT tmin tmax d0 (month_of_day (d0 + Z.of_nat i)))) dt * Rmean (sky_day (d0 + Z.of_nat i) lon lat tz)) vals.
Proof.
  intros RD PL C1 C2 N1 N2 FT. assert (F : day_frame dd d0 n) by (split; [apply RD|apply RD]).
  set (pot := potential_radiation (hours_index d0 n) (Fin lon) (Fin lat) (Fin tz) n0 n0 n0).
  set (sun := get_sun_times (daily_index d0 n) (Fin lon) (Fin lat) (Fin tz)).
  pose proof (rad_bc e dd d0 n tmin tmax (Some sun) pot (glob_params (g_angstroem (q_glob q))) _ _ _ (g_course (q_glob q)) F C1 C2 (sky_index _ _ _ _) (params_of _ FT)) as RS.
  destruct (radiation_runs e q st d0 n dd lon lat tz "pot_rad_via_bc" _ RD PL RS) as (st' & E1 & E2 & E3 & E4 & E5).
  { rewrite scale_index. apply sky_index. }
  exists st'. split; [exact E1|]. split; [exact E2|]. split; [exact E4|]. intros i dt A C Hi ED HD OD EP HA HC.
  destruct (C44_via_bc e dd d0 n tmin tmax (Some sun) pot (glob_params (g_angstroem (q_glob q))) _ _ _ (g_course (q_glob q)) i (sky_day (d0 + Z.of_nat i) lon lat tz) dt A C F C1 C2 N1 N2 (sky_index _ _ _ _) (params_of _ FT) Hi
    (sky_values d0 n lon lat tz i Hi OD) (sky_day_nonneg _ _ _ _) (sky_day_mean _ _ _ _ OD) ED HD) as (out & vals & g & O1 & _ & O2 & O3 & O4 & _);
    [unfold col_a; rewrite EP; reflexivity|unfold col_b; rewrite EP; reflexivity|exact HA|exact HC|].
  rewrite RS in O1. injection O1 as O1. rewrite <- O1 in O2. exists vals. split; [rewrite E3; exact O2|rewrite <- O4; exact O3].
Qed.
Print Assumptions C95_temperature.

(** ** calibrated from a record of hourly radiation *)
Lemma rad_stats_course cf mb fc lr pc e q dd dl how q' : run_stat cf mb fc lr pc e q (QRad dd dl how) = (q', None) ->
  (exists v, observed q "glob" v) /\ g_course (q_glob q') = Some (mean_course (record_of q "glob") false) /\
  q_glob q' = fst (calc_radiation_stats cf mb e (q_data q) (q_lon q) (q_lat q) (q_tz q) dd dl how (q_glob q)) /\
  snd (calc_radiation_stats cf mb e (q_data q) (q_lon q) (q_lat q) (q_tz q) dd dl how (q_glob q)) = None /\ In how ["all"; "seasonal"; "monthly"]%string.
Proof.
  cbn [run_stat]. unfold st_radiation_stats. destruct (calc_radiation_stats cf mb e (q_data q) (q_lon q) (q_lat q) (q_tz q) dd dl how (q_glob q)) as [g er] eqn:E.
  intro H. injection H as <- ->. cbn [q_glob with_glob fst snd]. revert E. unfold calc_radiation_stats.
  destruct (String.eqb how "all" || String.eqb how "seasonal" || String.eqb how "monthly") eqn:EH; [cbn [negb]|discriminate].
  assert (HH : In how ["all"; "seasonal"; "monthly"]%string).
  { apply orb_true_iff in EH as [EH|EH]; [apply orb_true_iff in EH as [EH|EH]|]; apply String.eqb_eq in EH; subst how; cbn; auto. }
  destruct (q_data q) as [df|] eqn:ED; [|discriminate]. unfold fcol at 1. destruct (assoc "glob" (f_cols df)) as [v|] eqn:EG; [|discriminate].
  assert (RO : record_of q "glob" = combine (f_index df) v) by (unfold record_of; rewrite ED, EG; reflexivity). rewrite RO.
  intro E. split; [exists v, df; split; assumption|]. split; [|auto].
  destruct dd as [dd|]; [|injection E as <-; reflexivity]. destruct (hourly_index e (f_index dd)); [|discriminate].
  destruct (q_lon q), (q_lat q), (q_tz q); try discriminate. destruct (month_ranges how) as [ranges once].
  match type of E with (let '(_, _) := ?x in _) = _ => destruct x as [[tbl err] rest] end.
  destruct err; [discriminate|]. destruct (_ && _); [|injection E as <-; reflexivity].
  match type of E with (let '(_, _) := ?x in _) = _ => destruct x as [tb eb] end. injection E as <- _. reflexivity.
Qed.

(** 'mean_course': the shape of the observed month, hour by hour *)
Theorem C95_mean_course cf mb fc lr pc e q sd dl how q' st d0 n dd gl lon lat tz : run_stat cf mb fc lr pc e q (QRad sd dl how) = (q', None) ->
  let rec := record_of q "glob" in
  numeric (map snd rec) ->
  (forall i h, (i < n)%nat -> (h < 24)%nat -> month_hour_values rec (month_of_day (d0 + Z.of_nat i)) (Z.of_nat h) <> []) ->
  ready st d0 n dd -> placed st d0 n lon lat tz -> has_column dd "glob" gl ->
  exists st', st_radiation e q' st "mean_course" None = (st', None) /\ ready st' d0 n dd /\ (forall c, c <> "glob"%string -> hourly_column st' c = hourly_column st c) /\
    forall i g, let p := map (fun h => Rmean (month_hour_values rec (month_of_day (d0 + Z.of_nat i)) (Z.of_nat h))) (seq 0 24) in
      nth_error gl i = Some (Fin g) -> (0 <= g)%R -> (forall x, In x p -> (0 <= x)%R) -> (0 < Rmean p)%R ->
      exists vals, hourly_on st' "glob" (d0 + Z.of_nat i) = map Fin vals /\ shaped p g vals.
Proof.
  intros RS rec NU HV RD PL C. destruct (rad_stats_course _ _ _ _ _ _ _ _ _ _ _ RS) as (_ & QC & _). fold rec in QC.
  assert (F : day_frame dd d0 n) by (split; [apply RD|apply RD]). destruct (column_daily dd d0 n "glob" gl F C) as [_ L].
  set (f := fun m h => Rmean (month_hour_values rec m (Z.of_nat h))).
  assert (HC : has_course (mean_course rec false) d0 n f).
  { intros i Hi. rewrite (course_column_full rec (month_of_day (d0 + Z.of_nat i)) false); [reflexivity| |exact NU|intros; apply HV; assumption].
    apply (hours_seen rec (month_of_day (d0 + Z.of_nat i))). intros; apply HV; assumption. }
  set (sun := get_sun_times (daily_index d0 n) (Fin lon) (Fin lat) (Fin tz)).
  pose proof (rad_course e dd d0 n gl (Some sun) None (glob_params (g_angstroem (q_glob q'))) (glob_params (g_bristcamp (q_glob q'))) _ f F C HC) as RC. cbv zeta in RC.
  destruct (radiation_runs e q' st d0 n dd lon lat tz "mean_course" (scale (map (fun t => (t, Fin (course_val f t))) (hours_index d0 n)) (resample us_day nanmean (map (fun t => (t, Fin (course_val f t))) (hours_index d0 n))) (daily d0 gl)) RD PL) as (st' & E1 & E2 & E3 & E4 & _).
  { rewrite QC. exact RC. }
  { rewrite scale_index, map_map. apply map_id. }
  exists st'. split; [exact E1|]. split; [exact E2|]. split; [exact E4|]. intros i g p EG HG HP HM.
  assert (Hi : (i < n)%nat) by (rewrite <- L; apply nth_error_Some; congruence).
  destruct (C41_mean_course e dd d0 n gl (Some sun) None (glob_params (g_angstroem (q_glob q'))) (glob_params (g_bristcamp (q_glob q'))) _ f i g F C HC Hi HP HM EG HG) as (out & vals & O1 & _ & O2 & O3).
  rewrite RC in O1. injection O1 as O1. rewrite <- O1 in O2. exists vals. split; [rewrite E3; exact O2|exact O3].
Qed.
Print Assumptions C95_mean_course.

(** the fit leaves residuals of at most eps, with parameters that are not negative *)
Definition angstroem_fit (cf : list (Z * (xr * xr * xr * xr)) -> res (xr * xr)) (eps : R) : Prop :=
  forall rows v, cf rows = Ok v -> exists a b, v = (Fin a, Fin b) /\ (0 <= a)%R /\ (0 <= b)%R /\
    forall t s l p o, In (t, (Fin s, Fin l, Fin p, Fin o)) rows -> (Rabs ((a + b * (s / l)) * p - o) <= eps)%R.

(** 'pot_rad_via_ssd' reproduces the observed daily means as well as the fit does, up to the cut-off of small values *)
Theorem C95_sunshine_calibrated cf mb fc lr pc e q how q' st d0 n dd ssd lon lat tz eps :
  q_lon q = Some (Fin lon) -> q_lat q = Some (Fin lat) -> q_tz q = Some (Fin tz) ->
  ready st d0 n dd -> placed st d0 n lon lat tz -> has_column dd "ssd" ssd ->
  let days := map (fun r => (fst r, daylength (snd r))) (get_sun_times (daily_index d0 n) (Fin lon) (Fin lat) (Fin tz)) in
  run_stat cf mb fc lr pc e q (QRad (Some dd) (Some days) how) = (q', None) -> angstroem_fit cf eps ->
  let rec := record_of q "glob" in
  exists st', st_radiation e q' st "pot_rad_via_ssd" None = (st', None) /\ ready st' d0 n dd /\ (forall c, c <> "glob"%string -> hourly_column st' c = hourly_column st c) /\
    s_sun st' = Some (get_sun_times (daily_index d0 n) (Fin lon) (Fin lat) (Fin tz)) /\
    forall i s dl, nth_error ssd i = Some (Fin s) -> sun_length st' (d0 + Z.of_nat i) dl -> (0 < dl)%R -> (0 <= s <= dl)%R -> ordinary_day (d0 + Z.of_nat i) lon lat tz ->
      numeric (values_on (d0 + Z.of_nat i) rec) -> fins (values_on (d0 + Z.of_nat i) rec) <> [] ->
      exists vals, hourly_on st' "glob" (d0 + Z.of_nat i) = map Fin vals /\ length vals = 24%nat /\
        (Rabs (Rmean vals - Rmean (fins (values_on (d0 + Z.of_nat i) rec))) <= eps + 1 / 100)%R.
Proof.
  intros L1 L2 L3 RD PL C days RS FIT rec.
  destruct (rad_stats_course _ _ _ _ _ _ _ _ _ _ _ RS) as ((v & df & ED & EG) & _ & QG & QE & HOW).
  assert (F : day_frame dd d0 n) by (split; [apply RD|apply RD]). destruct (column_daily dd d0 n "ssd" ssd F C) as [_ LS].
  assert (RO : rec = combine (f_index df) v) by (unfold rec, record_of; rewrite ED, EG; reflexivity).
  pose proof (day_frame_hours e dd d0 n F) as HH. rewrite ED, L1, L2, L3 in QG, QE.
  set (run := calc_radiation_stats cf mb e (Some df) (Some (Fin lon)) (Some (Fin lat)) (Some (Fin tz)) (Some dd) (Some days) how (q_glob q)) in *.
  assert (RE : run = (q_glob q', None)) by (rewrite QG, <- QE; apply surjective_pairing).
  pose proof (C45_angstroem_groups cf mb e df dd v _ (Fin lon) (Fin lat) (Fin tz) (Some days) how (q_glob q) HOW EG HH ssd days (q_glob q') (proj1 C) eq_refl RE) as FG. rewrite <- RO in FG.
  assert (FT : full_table (g_angstroem (q_glob q'))).
  { intros m Hm. apply (month_groups_all how) in Hm. apply in_concat in Hm as (ms & H1 & H2). destruct (FG ms H1) as (rows & w & _ & _ & W). exists w. apply W, H2. }
  destruct (C95_sunshine e q' st d0 n dd ssd lon lat tz RD PL C FT) as (st' & E1 & E2 & E3 & SR & V).
  exists st'. split; [exact E1|]. split; [exact E2|]. split; [exact E3|]. split; [exact SR|]. intros i s dl ES EL DP HS OD NU NE.
  assert (Hi : (i < n)%nat) by (rewrite <- LS; apply nth_error_Some; congruence).
  set (day := d0 + Z.of_nat i) in *. set (o := Rmean (fins (values_on day rec))).
  pose proof (month_range day) as MR. apply (month_groups_all how) in MR. apply in_concat in MR as (ms & M1 & M2).
  destruct (FG ms M1) as (rows & w & (_ & RI) & CF & W). destruct (FIT rows w CF) as (a & b & -> & HA & HB & HR).
  destruct (V i s dl a b ES EL DP HS OD (W _ M2) HA HB) as (vals & HO & SH).
  exists vals. split; [exact HO|].
  assert (IR : In (day * us_day, (Fin s, Fin dl, Fin (Rmean (sky_day day lon lat tz)), Fin o)) rows).
  { apply RI. split; [rewrite month_midnight; exact M2|].
    destruct F as [N0 FI]. split; [rewrite entry_lookup, FI; replace (combine (daily_index d0 n) ssd) with (daily d0 ssd) by (unfold daily; rewrite LS; reflexivity); unfold day; rewrite lookup_daily; exact ES|].
    split.
    { destruct EL as (tbl & row & T1 & T2 & T3). rewrite SR in T1. apply (f_equal (fun x => match x with Some t => t | None => [] end)) in T1. unfold days. rewrite (entry_map daylength), T1, T2, T3. reflexivity. }
    split.
    { rewrite entry_lookup. rewrite (resample_hours nanmean d0 n) by apply sky_index. rewrite <- (daily_seq (fun i => nanmean (values_on (d0 + Z.of_nat i) (potential_radiation (hours_index d0 n) (Fin lon) (Fin lat) (Fin tz) n0 n0 n0))) d0 n).
      unfold day at 1. rewrite lookup_daily, nth_error_map, nth_error_nth' with (d := O) by (rewrite seq_length; exact Hi). rewrite seq_nth by exact Hi. cbn [option_map Nat.add].
      rewrite (sky_values d0 n lon lat tz i Hi OD). rewrite nanmean_numeric; [rewrite fins_Fin; reflexivity|apply numeric_Fin|rewrite fins_Fin; discriminate]. }
    split; [|repeat split; discriminate]. rewrite entry_lookup.
    assert (EX : exists t, In t (map fst rec) /\ date_of t = day).
    { destruct (values_on day rec) as [|x l] eqn:EV; [contradiction|]. assert (IX : In x (values_on day rec)) by (rewrite EV; left; reflexivity). unfold values_on in IX. apply in_map_iff in IX as ([t y] & _ & IX). apply filter_In in IX as [I1 I2].
      exists t. split; [apply in_map_iff; exists (t, y); auto|apply Z.eqb_eq, I2]. }
    destruct EX as (t & T1 & T2). rewrite <- T2. rewrite resample_day by exact T1. rewrite T2. f_equal. apply nanmean_numeric; assumption. }
  pose proof (HR _ _ _ _ _ IR) as B. fold day in SH. destruct SH as (S1 & _ & S3 & _).
  split; [rewrite S1; unfold sky_day; rewrite map_length, seq_length; reflexivity|].
  set (g := ((a + b * (s / dl)) * Rmean (sky_day day lon lat tz))%R) in *.
  apply Rle_trans with (Rabs (Rmean vals - g) + Rabs (g - o))%R; [replace (Rmean vals - o)%R with ((Rmean vals - g) + (g - o))%R by ring; apply Rabs_triang|].
  assert (Rabs (Rmean vals - g) <= 1 / 100)%R by (apply Rabs_le; lra). lra.
Qed.
Print Assumptions C95_sunshine_calibrated.

(** a station on the equator, 1 January 1970 *)
Lemma equator_day : ordinary_day 0 0 0 0.
Proof.
  assert (DY : doy_of_day 0 = 1) by reflexivity. unfold ordinary_day. rewrite DY.
  set (D := sun_decl 1).
  assert (HD : (- (PI / 2) < D < 0)%R).
  { unfold D, sun_decl. pose proof PI_RGT_0 as P.
    assert (C1 : (cos (2 * PI * (1 - 173) / 365.25) < 0)%R).
    { replace (2 * PI * (1 - 173) / 365.25)%R with (- (2 * PI * 172 / 365.25))%R by lra. rewrite cos_neg. apply cos_lt_0; lra. }
    pose proof (COS_bound (2 * PI * (1 - 173) / 365.25)) as [C2 _]. set (c := cos _) in *.
    assert (B : (0 < 23.43697 * (PI / 180))%R) by lra. split; [|nra].
    apply Rlt_le_trans with (23.43697 * (PI / 180) * -1)%R; [lra|]. apply Rmult_le_compat_l; lra. }
  assert (C0 : (0 < cos D)%R) by (apply cos_gt_0; lra).
  assert (C1 : (cos D < 1)%R).
  { pose proof PI_RGT_0 as P. assert (S0 : (sin D < 0)%R) by (apply sin_lt_0_var; lra). pose proof (sin2_cos2 D) as Q. unfold Rsqr in Q. nra. }
  assert (HH : forall h, sun_height 1 h 0 0 0 0 = (cos D * cos (sun_hour_angle h 0 0 0))%R).
  { intro h. unfold sun_height. fold D. replace (0 * (PI / 180))%R with 0%R by lra. rewrite sin_0, cos_0. ring. }
  split.
  - intros h _. rewrite HH. pose proof (COS_bound (sun_hour_angle (Z.of_nat h) 0 0 0)) as [_ K].
    apply Rle_lt_trans with (cos D * 1)%R; [apply Rmult_le_compat_l; lra|lra].
  - exists 12%nat. split; [lia|]. rewrite HH. change (Z.of_nat 12) with 12.
    replace (sun_hour_angle 12 0 0 0) with 0%R by (unfold sun_hour_angle; field). rewrite cos_0. lra.
Qed.
Definition ex_sky_day : dframe xr :=
  Build_dframe (daily_index 0 1) [("glob"%string, [Fin 200]); ("ssd"%string, [Fin 6]); ("precip"%string, [Fin 3])].
Definition ex_sky : station :=
  {| s_lon := Some (Fin 0); s_lat := Some (Fin 0); s_tz := Some (Fin 0); s_stats := O; s_daily := Some ex_sky_day; s_disagg := Some (empty_hourly (hours_index 0 1)); s_sun := None |}.
Lemma ex_sky_ready : ready ex_sky 0 1 ex_sky_day.
Proof. split; [discriminate|]. split; [reflexivity|]. split; [reflexivity|]. eexists. split; [reflexivity|]. split; reflexivity. Qed.
Lemma ex_sky_placed : placed ex_sky 0 1 0 0 0.
Proof. repeat split. left. reflexivity. Qed.
Lemma init_full : full_table (g_angstroem init_glob) /\ full_table (g_bristcamp init_glob).
Proof.
  assert (M : forall m, 1 <= m <= 12 -> m = 1 \/ m = 2 \/ m = 3 \/ m = 4 \/ m = 5 \/ m = 6 \/ m = 7 \/ m = 8 \/ m = 9 \/ m = 10 \/ m = 11 \/ m = 12) by lia.
  split; intros m Hm; destruct (M m Hm) as [->|[->|[->|[->|[->|[->|[->|[->|[->|[->|[->| ->]]]]]]]]]]]; eexists; reflexivity.
Qed.
Example C95_met : exists st', st_radiation modern (new_stats (Some (Fin 0)) (Some (Fin 0)) (Some (Fin 0))) ex_sky "pot_rad_via_ssd" None = (st', None) /\
  sun_length st' 0 12 /\
  exists vals, hourly_on st' "glob" 0 = map Fin vals /\ shaped (sky_day 0 0 0 0) ((25 / 100 + 75 / 100 * (6 / 12)) * Rmean (sky_day 0 0 0 0)) vals.
Proof.
  destruct (C95_sunshine modern (new_stats (Some (Fin 0)) (Some (Fin 0)) (Some (Fin 0))) ex_sky 0 1 ex_sky_day [Fin 6] 0 0 0 ex_sky_ready ex_sky_placed) as (st' & A & _ & _ & SU & V); [split; reflexivity|apply init_full|].
  exists st'. split; [exact A|].
  assert (L : sun_length st' 0 12).
  { destruct C33_met as (row & E & D). exists [(0, row)], row. rewrite SU. split; [change (daily_index 0 1) with [0]; rewrite E; reflexivity|]. split; [reflexivity|exact D]. }
  split; [exact L|].
  apply (V 0%nat 6%R 12%R (25 / 100)%R (75 / 100)%R); try lra; [reflexivity|exact L|exact equator_day|].
  change (month_of_day (0 + Z.of_nat 0)) with 1. cbn [new_stats q_glob init_glob g_angstroem]. 
  transitivity (Some ((lit 25 2 : xr), (lit 75 2 : xr))); [reflexivity|]. rewrite !lit_xr by lia. reflexivity.
Qed.

(** a record that the Angstroem equation with 1/4 and 3/4 explains, and a fit that accepts only such rows *)
Definition exact_fit (rows : list (Z * (xr * xr * xr * xr))) : res (xr * xr) :=
  if forallb (fun r => match snd r with
                       | (Fin s, Fin l, Fin p, Fin o) => if Req_EM_T ((1 / 4 + 3 / 4 * (s / l)) * p) o then true else false
                       | _ => false end) rows
  then Ok (Fin (1 / 4), Fin (3 / 4)) else Err ValueError.
Lemma exact_fit_exact : angstroem_fit exact_fit 0.
Proof.
  intros rows v H. unfold exact_fit in H. destruct (forallb _ rows) eqn:E; [|discriminate].
  exists (1 / 4)%R, (3 / 4)%R. split; [congruence|]. split; [lra|]. split; [lra|]. intros t s l p o I.
  rewrite forallb_forall in E. specialize (E _ I). cbn [snd] in E. destruct (Req_EM_T _ o) as [->|]; [|discriminate].
  rewrite Rminus_diag_eq by reflexivity. rewrite Rabs_R0. lra.
Qed.
Definition ex_sun_mean : R := ((1 / 4 + 3 / 4 * (6 / 12)) * Rmean (sky_day 0 0 0 0))%R.
Definition ex_sun_frame : dframe xr := Build_dframe (hours_index 0 1) [("glob"%string, map (fun _ => Fin ex_sun_mean) (hours_index 0 1))].
Definition ex_sun_stats : sstats := fst (set_data (new_stats (Some (Fin 0)) (Some (Fin 0)) (Some (Fin 0))) (VFrame {| p_datetime := true; p_freq := false; p_data := ex_sun_frame |})).
Lemma ex_sun_record : record_of ex_sun_stats "glob" = map (fun t => (t, Fin ex_sun_mean)) (hours_index 0 1).
Proof. unfold record_of. change (q_data ex_sun_stats) with (Some ex_sun_frame). cbn [f_cols ex_sun_frame assoc String.eqb Ascii.eqb Bool.eqb f_index]. apply combine_map_id. Qed.
Lemma ex_sun_day x : In x (values_on 0 (record_of ex_sun_stats "glob")) -> x = Fin ex_sun_mean.
Proof. rewrite ex_sun_record. unfold values_on. intro H. apply in_map_iff in H as ([t y] & <- & H). apply filter_In in H as [H _]. apply in_map_iff in H as (u & E & _). cbn [snd]. congruence. Qed.
Lemma ex_sun_some : In (Fin ex_sun_mean) (values_on 0 (record_of ex_sun_stats "glob")).
Proof. rewrite ex_sun_record. left. reflexivity. Qed.
Lemma ex_sun_numeric : numeric (values_on 0 (record_of ex_sun_stats "glob")).
Proof. unfold numeric. apply Forall_forall. intros x Hx. rewrite (ex_sun_day x Hx). exact I. Qed.
Lemma ex_sun_fins : fins (values_on 0 (record_of ex_sun_stats "glob")) <> [] /\ Rmean (fins (values_on 0 (record_of ex_sun_stats "glob"))) = ex_sun_mean.
Proof.
  assert (NE : fins (values_on 0 (record_of ex_sun_stats "glob")) <> []).
  { intro K. pose proof (proj2 (fins_In _ _) ex_sun_some) as Q. rewrite K in Q. destruct Q. }
  split; [exact NE|]. apply const_mean; [exact NE|]. intros x Hx. apply fins_In in Hx. apply ex_sun_day in Hx. congruence.
Qed.
Example C95_calibrated_met mb fc lr pc : exists q' st',
  let days := map (fun r => (fst r, daylength (snd r))) (get_sun_times (daily_index 0 1) (Fin 0) (Fin 0) (Fin 0)) in
  run_stat exact_fit mb fc lr pc modern ex_sun_stats (QRad (Some ex_sky_day) (Some days) "all") = (q', None) /\
  st_radiation modern q' ex_sky "pot_rad_via_ssd" None = (st', None) /\
  exists vals, hourly_on st' "glob" 0 = map Fin vals /\ (Rabs (Rmean vals - ex_sun_mean) <= 1 / 100)%R.
Proof.
  set (days := map (fun r => (fst r, daylength (snd r))) (get_sun_times (daily_index 0 1) (Fin 0) (Fin 0) (Fin 0))).
  assert (ED : days = [(0, Fin 12)]).
  { destruct C33_met as (row & E & D). unfold days. change (daily_index 0 1) with [0]. rewrite E. cbn [map fst snd]. rewrite D. reflexivity. }
  destruct ex_sun_fins as [NE MN].
  assert (RS : exists q', run_stat exact_fit mb fc lr pc modern ex_sun_stats (QRad (Some ex_sky_day) (Some days) "all") = (q', None)).
  { cbn [run_stat]. unfold st_radiation_stats.
    change (q_data ex_sun_stats) with (Some ex_sun_frame). change (q_lon ex_sun_stats) with (Some (Fin 0)). change (q_lat ex_sun_stats) with (Some (Fin 0)). change (q_tz ex_sun_stats) with (Some (Fin 0)).
    assert (HH : hourly_index modern (f_index ex_sky_day) = Ok (hours_index 0 1)) by (apply (day_frame_hours modern ex_sky_day 0 1); split; [discriminate|reflexivity]).
    match goal with |- context [calc_radiation_stats ?cf ?m ?e ?d ?a ?b ?c ?dd ?l ?h ?g] => assert (Q : exists g', calc_radiation_stats cf m e d a b c dd l h g = (g', None)); [|destruct Q as [g' Q]; rewrite Q; eexists; reflexivity] end.
    rewrite (run_eq exact_fit mb modern ex_sun_frame ex_sky_day _ (hours_index 0 1) (Fin 0) (Fin 0) (Fin 0) (Some days) "all" (q_glob ex_sun_stats) (or_introl eq_refl) eq_refl HH).
    cbv zeta. change (assoc "ssd" (f_cols ex_sky_day)) with (Some [Fin 6]). change (assoc "tmin" (f_cols ex_sky_day)) with (@None (list xr)). cbv iota.
    change (month_groups "all") with [[1; 2; 3; 4; 5; 6; 7; 8; 9; 10; 11; 12]]. cbn [fit_loop].
    match goal with |- context [exact_fit ?l] => assert (X : exact_fit l = Ok (Fin (1 / 4), Fin (3 / 4))) end; [|rewrite X; eexists; reflexivity].
    unfold exact_fit. rewrite (proj2 (forallb_forall _ _)); [reflexivity|]. intros [t [[[s l] p] o]] IN.
    match type of IN with In _ (join4 (extract_months ?a ?ms) (extract_months ?b _) (extract_months ?c _) (extract_months ?d _)) => destruct (angstroem_rows ms a b c d) as [_ RI] end.
    apply (proj1 (RI t s l p o)) in IN. clear RI. destruct IN as (_ & E1 & E2 & E3 & E4 & _). rewrite entry_lookup in E1, E2, E3, E4.
    assert (ET : t = 0 /\ s = Fin 6).
    { clear - E1. change (combine (f_index ex_sky_day) [Fin 6]) with [(0, Fin 6)] in E1. unfold lookup in E1. cbn [find fst snd option_map] in E1. destruct (Z.eqb_spec 0 t) as [<-|]; [|discriminate]. split; [reflexivity|congruence]. }
    destruct ET as [-> ->]. rewrite ED in E2. change (lookup 0 [(0, Fin 12)]) with (Some (Fin 12)) in E2. apply (f_equal (fun x => match x with Some y => y | None => NaN end)) in E2. subst l.
    rewrite (resample_hours nanmean 0 1) in E3 by apply sky_index.
    change (lookup 0 _) with (Some (nanmean (values_on (0 + Z.of_nat 0) (potential_radiation (hours_index 0 1) (Fin 0) (Fin 0) (Fin 0) n0 n0 n0)))) in E3.
    rewrite (sky_values 0 1 0 0 0 0 ltac:(lia) equator_day) in E3. rewrite nanmean_numeric in E3; [|apply numeric_Fin|rewrite fins_Fin; discriminate]. rewrite fins_Fin in E3.
    assert (E4' : lookup 0 (resample us_day nanmean (record_of ex_sun_stats "glob")) = Some o) by exact E4.
    change 0 with (0 * us_day) in E4' at 1. assert (T0 : In 0 (map fst (record_of ex_sun_stats "glob"))) by (rewrite ex_sun_record; left; reflexivity).
    pose proof (resample_day nanmean (record_of ex_sun_stats "glob") 0 T0) as R0. change (date_of 0) with 0 in R0. rewrite R0 in E4'. rewrite nanmean_numeric in E4'; [|apply ex_sun_numeric|exact NE]. rewrite MN in E4'.
    cbn [snd]. injection E3 as <-. injection E4' as <-. change (0 + Z.of_nat 0) with 0. destruct (Req_EM_T _ _) as [|K]; [reflexivity|]. exfalso. apply K. reflexivity. }
  destruct RS as (q' & RS). exists q'.
  destruct (C95_sunshine_calibrated exact_fit mb fc lr pc modern ex_sun_stats "all" q' ex_sky 0 1 ex_sky_day [Fin 6] 0 0 0 0 eq_refl eq_refl eq_refl ex_sky_ready ex_sky_placed (conj eq_refl eq_refl) RS exact_fit_exact) as (st' & A & _ & _ & SU & V).
  exists st'. split; [exact RS|]. split; [exact A|].
  destruct (V 0%nat 6%R 12%R eq_refl) as (vals & E & _ & B); try lra; try assumption.
  - destruct C33_met as (row & E & D). exists [(0, row)], row. rewrite SU. split; [change (daily_index 0 1) with [0]; rewrite E; reflexivity|]. split; [reflexivity|exact D].
  - exact equator_day.
  - apply ex_sun_numeric.
  - exists vals. split; [exact E|]. change (0 + Z.of_nat 0) with 0 in B. rewrite MN in B. lra.
Qed.
