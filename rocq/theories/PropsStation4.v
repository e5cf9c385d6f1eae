(** Properties C90-C92: a station calibrated with observations reproduces what the observations determine. *)
From Coq Require Import String ZArith List Bool Reals Sorted Lia Lra.
From Verif Require Import Py Num Cal Series Frame SpecBase TimeProofs IndexProofs DaysProofs InterpProofs TempProofs RadBC UtilModel CascadeModel PrecipModel
  Trans UtilModel2 SpecUtil UtilProofs ThermoProofs PropsUtil SpecHum SpecRad RadProofs SunProofs TempModel SpecTemp RadModel RadStats HumModel HumProofs PropsHum WindModel PropsWind PropsTemp StationModel SpecStation StationProofs StationDaily StationCascade PropsStation PropsStation2 PropsStation3 LinReg.
Import ListNotations.
Open Scope Z_scope.

(** ** C90: wind *)
(** the mean of the valid observations of a day *)
Definition day_mean (d0 : Z) (obs : Z -> xr) (i : nat) : R := Rmean (fins (map (fun h => obs (stamp (d0 + Z.of_nat i) h)) (seq 0 24))).
Lemma wind_row_In d0 n obs i h r : (i < n)%nat -> (h < 24)%nat -> obs (stamp (d0 + Z.of_nat i) h) = Fin r ->
  In (Fin (day_mean d0 obs i), Z.of_nat h, Fin r) (wind_rows (map (fun t => (t, obs t)) (hours_index d0 n))).
Proof.
  intros Hi Hh E. unfold wind_rows. apply in_flat_map. exists (stamp (d0 + Z.of_nat i) h, obs (stamp (d0 + Z.of_nat i) h)).
  split; [apply in_map_iff; exists (stamp (d0 + Z.of_nat i) h); split; [reflexivity|apply hours_In; lia]|].
  cbn [fst snd]. rewrite E, stamp_date, stamp_hour, (values_on_map_hours obs d0 n i Hi) by exact Hh. left. reflexivity.
Qed.
Theorem C90_wind cf mb fc lr pc e q st d0 n dd obs a b s eps draw :
  record_of q "wind" = map (fun t => (t, obs t)) (hours_index d0 n) -> numeric (map obs (hours_index d0 n)) ->
  (* the fit leaves residuals of at most eps *)
  fc (wind_rows (record_of q "wind")) = Ok (Fin a, Fin b, Fin s) ->
  (forall row, In row (wind_rows (record_of q "wind")) -> (Rabs (residual a b s row) <= eps)%R) ->
  (* the station has the daily means of the same record *)
  ready st d0 n dd -> has_column dd "wind" (map (fun i => Fin (day_mean d0 obs i)) (seq 0 n)) ->
  exists q' st', run_stat cf mb fc lr pc e q QWind = (q', None) /\ st_wind e q' st "cosine" draw = (st', None) /\ ready st' d0 n dd /\
    forall i h r, (i < n)%nat -> (h < 24)%nat -> obs (stamp (d0 + Z.of_nat i) h) = Fin r ->
      exists v, nth h (hourly_on st' "wind" (d0 + Z.of_nat i)) NaN = Fin v /\ (Rabs (v - r) <= eps)%R.
Proof.
  intros ER NU EF HR RD HC.
  assert (NR : numeric (map snd (record_of q "wind"))) by (rewrite ER, map_map; exact NU).
  pose proof (C89_wind_outcome cf mb fc lr pc e q NR) as OUT. rewrite EF in OUT.
  assert (ND : record_of q "wind" <> []).
  { rewrite ER. destruct RD as (N0 & _). destruct n; [contradiction|]. discriminate. }
  destruct (run_stat cf mb fc lr pc e q QWind) as [q' er] eqn:RS. cbn [snd] in OUT.
  assert (EN : er = None).
  { rewrite OUT. unfold record_of in ND. destruct (q_data q) as [d|]; [|contradiction]. destruct (assoc "wind" (f_cols d)); [reflexivity|contradiction]. }
  rewrite EN in *. clear er EN OUT. destruct (C89_wind _ _ _ _ _ _ _ _ RS NR) as (_ & (a' & b' & s' & E1 & Qa & Qb & Qs) & _). rewrite EF in E1. injection E1 as <- <- <-.
  destruct (C85_wind e q' st d0 n dd _ draw RD HC) as [_ K]. destruct (K a b s Qa Qb Qs) as (st' & ES & RD' & V).
  exists q', st'. split; [reflexivity|]. split; [exact ES|]. split; [exact RD'|].
  intros i h r Hi Hh EO. destruct (V i (day_mean d0 obs i)) as (x & EX & LX & _ & VX).
  { rewrite nth_error_map, (nth_error_nth' (seq 0 n) i O) by (rewrite seq_length; exact Hi). rewrite seq_nth by exact Hi. reflexivity. }
  exists (nth h x 0%R). rewrite EX. split.
  { rewrite (nth_indep _ NaN (Fin 0)) by (rewrite map_length; lia). apply map_nth. }
  rewrite (VX h Hh). pose proof (HR _ (eq_ind_r (fun l => In _ (wind_rows l)) (wind_row_In d0 n obs i h r Hi Hh EO) ER)) as B.
  unfold residual, cosine_R in B. rewrite <- INR_IZR_INZ in B. exact B.
Qed.
Print Assumptions C90_wind.
(** data that follow the cosine law and a fit that finds it: reproduced exactly *)
Example C90_met : let obs := fun t => Fin (cosine_R (nth (Z.to_nat (date_of t)) [3; 5]%R 0%R) (IZR (hour_of t)) 1 2 14) in
  let rec := map (fun t => (t, obs t)) (hours_index 0 2) in
  numeric (map obs (hours_index 0 2)) /\ forall row, In row (wind_rows rec) -> (Rabs (residual (1 / 2) 1 14 row) <= 0)%R.
Proof.
  cbv zeta. split.
  - unfold numeric. apply Forall_forall. intros x Hx. apply in_map_iff in Hx as (t & <- & _). exact I.
  - intros row H. destruct (C78_exact_fit 0 [3; 5]%R 1 2 14 ltac:(lra)) as [_ K]. cbv zeta in K. change (length [3; 5]%R) with 2%nat in K.
    rewrite cosine_rows_eq in K.
    + assert (EQ : (map (fun t => (t, Fin (cosine_R (nth (Z.to_nat (date_of t)) [3; 5]%R 0%R) (IZR (hour_of t)) 1 2 14))) (hours_index 0 2))
                 = (map (fun t => (t, Fin (cosine_R (nth (Z.to_nat (date_of t - 0)) [3; 5]%R 0%R) (IZR (hour_of t)) 1 2 14))) (hours_index 0 2))).
      { apply map_ext. intro t. rewrite Z.sub_0_r. reflexivity. }
      rewrite EQ in H. rewrite (K row H), Rabs_R0. lra.
    + rewrite map_map. cbn [snd]. unfold numeric. apply Forall_forall. intros x Hx. apply in_map_iff in Hx as (t & <- & _). exact I.
Qed.

(** ** C91: temperature *)
Theorem C91_temperature cf mb fc lr pc e q lon lat tz st d0 n dd tmin tmax temp mmt night :
  q_lon q = Some lon -> q_lat q = Some lat -> q_tz q = Some tz -> (exists v, observed q "temp" v) ->
  let rec := record_of q "temp" in
  numeric (map snd rec) ->
  (* every month of the station's record is covered by the observations at every hour, and has a diurnal cycle there *)
  (forall i h, (i < n)%nat -> (h < 24)%nat -> month_hour_values rec (month_of_day (d0 + Z.of_nat i)) (Z.of_nat h) <> []) ->
  (forall i, (i < n)%nat -> exists h k, (h < 24)%nat /\ (k < 24)%nat /\
     Rmean (month_hour_values rec (month_of_day (d0 + Z.of_nat i)) (Z.of_nat h)) <> Rmean (month_hour_values rec (month_of_day (d0 + Z.of_nat i)) (Z.of_nat k))) ->
  ready st d0 n dd -> has_column dd "tmin" tmin -> has_column dd "tmax" tmax -> has_column dd "temp" temp ->
  exists q' st', run_stat cf mb fc lr pc e q QTemp = (q', None) /\
    st_temperature e q' st "mean_course_min_max" mmt night = (st', None) /\ ready st' d0 n dd /\
    (forall c, c <> "temp"%string -> hourly_column st' c = hourly_column st c) /\
    forall i lo hi, (i < n)%nat -> nth i tmin NaN = Fin lo -> nth i tmax NaN = Fin hi -> (lo <= hi)%R ->
      exists vals, hourly_on st' "temp" (d0 + Z.of_nat i) = map Fin vals /\ length vals = 24%nat /\ is_min vals lo /\ is_max vals hi.
Proof.
  intros E1 E2 E3 (v & dq & ED & EV) rec NU HV HD RD C1 C2 C3.
  assert (RS : exists q', run_stat cf mb fc lr pc e q QTemp = (q', None)).
  { cbn [run_stat]. unfold calc_temperature_stats, data_frame, fcol. rewrite ED. cbn [bind]. rewrite EV. cbn [bind]. rewrite E1, E2, E3. eexists. reflexivity. }
  destruct RS as (q' & RS). destruct (C89_temperature _ _ _ _ _ _ _ _ RS) as (_ & _ & QC & _).
  destruct (C37_course_from_data rec d0 n NU HV HD) as (f & HF & HB).
  destruct (ready_column _ _ _ _ _ _ RD C3) as [_ L3]. destruct (ready_column _ _ _ _ _ _ RD C1) as [_ L1]. destruct (ready_column _ _ _ _ _ _ RD C2) as [_ L2].
  assert (NE : temp <> []) by (destruct RD as (N0 & _); intros ->; apply N0; symmetry; exact L3).
  assert (TF : temp_frame dd d0 tmin tmax temp).
  { destruct RD as (_ & _ & DI & _). unfold temp_frame. rewrite L3. repeat split; [exact DI|exact L1|exact L2|apply C1|apply C2|apply C3]. }
  rewrite <- L3 in HF. destruct (C37_min_max e dd d0 tmin tmax temp mmt night (q_delta q') (s_sun st) _ f NE TF HF) as (out & EO & EI & V).
  rewrite L3 in EI. destruct (put_series_ready st d0 n dd "temp" out RD) as (st' & ES & RD' & _ & HO & HC); [cbn; auto|exact EI|].
  exists q', st'. split; [exact RS|]. split.
  { unfold st_temperature, daily_frame_temp. destruct RD as (_ & -> & _). cbn [bind]. assert (EO' : disaggregate_temperature e dd "mean_course_min_max" mmt night (q_delta q') (q_tcourse q') (s_sun st) = Ok out) by (rewrite QC; exact EO). rewrite EO'. exact ES. }
  split; [exact RD'|]. split; [exact HC|]. intros i lo hi Hi A B LE. rewrite HO. apply V; try assumption; [lia|apply HB, Hi].
Qed.
Print Assumptions C91_temperature.
Lemma const_mean (l : list R) c : l <> [] -> (forall x, In x l -> x = c) -> Rmean l = c.
Proof.
  intros NE H. unfold Rmean. assert (S : Rsum l = (INR (length l) * c)%R).
  { clear NE. induction l as [|x l IH]; [unfold Rsum; cbn; lra|]. cbn [length]. rewrite S_INR. unfold Rsum in *. cbn [fold_right]. rewrite IH by (intros; apply H; right; assumption). rewrite (H x (or_introl eq_refl)). lra. }
  rewrite S. field. destruct l as [|x l]; [contradiction|]. cbn [length]. rewrite S_INR. pose proof (pos_INR (length l)). lra.
Qed.
Lemma min_unique l a b : is_min l a -> is_min l b -> a = b.
Proof. intros [A1 A2] [B1 B2]. pose proof (A2 _ B1). pose proof (B2 _ A1). lra. Qed.
Definition ex_temp_day : dframe xr :=
  Build_dframe (daily_index 5 2) [("tmin"%string, [Fin 270; Fin 271]); ("tmax"%string, [Fin 280; Fin 285]); ("temp"%string, [Fin 275; NaN]); ("precip"%string, [Fin 3; Fin 0])].
Definition ex_station : station :=
  {| s_lon := None; s_lat := None; s_tz := None; s_stats := O; s_daily := Some ex_temp_day; s_disagg := Some (empty_hourly (hours_index 5 2)); s_sun := None |}.
Lemma ex_station_ready : ready ex_station 5 2 ex_temp_day.
Proof. split; [discriminate|]. split; [reflexivity|]. split; [reflexivity|]. eexists. split; [reflexivity|]. split; reflexivity. Qed.
Lemma ex_month_hour h : (h < 24)%nat -> exists l, month_hour_values (record_of ex_calib "temp") 1 (Z.of_nat h) = l /\ l <> [] /\ forall x, In x l -> x = (280 + INR h)%R.
Proof.
  intro Hh. eexists. split; [reflexivity|]. rewrite (ex_record "temp" (map ex_temp (hours_index 0 2)) eq_refl), combine_map_id. unfold month_hour_values. split.
  - assert (I : In (280 + INR h)%R (fins (map snd (filter (fun p : Z * xr => (month_of (fst p) =? 1) && (hour_of (fst p) =? Z.of_nat h)) (map (fun t : Z => (t, ex_temp t)) (hours_index 0 2)))))).
    { apply fins_In. apply in_map_iff. exists (stamp 0 h, ex_temp (stamp 0 h)). split; [cbn [snd]; unfold ex_temp; rewrite stamp_hour by exact Hh; rewrite <- INR_IZR_INZ; reflexivity|].
      apply filter_In. split; [apply in_map_iff; exists (stamp 0 h); split; [reflexivity|apply hours_In; lia]|]. cbn [fst]. rewrite stamp_month, stamp_hour by exact Hh. rewrite (Z.eqb_refl (Z.of_nat h)). reflexivity. }
    intro K. rewrite K in I. destruct I.
  - intros x Hx. apply fins_In in Hx. apply in_map_iff in Hx as ([t v] & E & Hx). cbn [snd] in E. subst v. apply filter_In in Hx as [Hx K]. apply in_map_iff in Hx as (t' & E & _). injection E as -> E.
    cbn [fst] in K. apply andb_true_iff in K as [_ K]. apply Z.eqb_eq in K. unfold ex_temp in E. rewrite K, <- INR_IZR_INZ in E. congruence.
Qed.
Example C91_met cf mb fc lr pc : exists q' st', run_stat cf mb fc lr pc modern ex_calib QTemp = (q', None) /\
  st_temperature modern q' ex_station "mean_course_min_max" "sun_loc" false = (st', None) /\
  exists vals, hourly_on st' "temp" 6 = map Fin vals /\ is_min vals 271 /\ is_max vals 285.
Proof.
  destruct (C91_temperature cf mb fc lr pc modern ex_calib (Fin 11) (Fin 47) (Fin 1) ex_station 5 2 ex_temp_day [Fin 270; Fin 271] [Fin 280; Fin 285] [Fin 275; NaN] "sun_loc" false) as (q' & st' & A & B & _ & _ & V); try reflexivity; try (split; reflexivity).
  - exists (map ex_temp (hours_index 0 2)), ex_frame. split; reflexivity.
  - rewrite (ex_record "temp" (map ex_temp (hours_index 0 2)) eq_refl), combine_map_id, map_map. unfold numeric. apply Forall_forall. intros x Hx. apply in_map_iff in Hx as (t & <- & _). exact I.
  - intros i h Hi Hh. destruct (ex_month_hour h Hh) as (l & E & NE & _). assert (M : month_of_day (5 + Z.of_nat i) = 1) by (destruct i as [|[|]]; [reflexivity|reflexivity|lia]). rewrite M, E. exact NE.
  - intros i Hi. exists 0%nat, 1%nat. split; [lia|]. split; [lia|]. assert (M : month_of_day (5 + Z.of_nat i) = 1) by (destruct i as [|[|]]; [reflexivity|reflexivity|lia]). rewrite M.
    destruct (ex_month_hour 0 ltac:(lia)) as (l & -> & NE & K). destruct (ex_month_hour 1 ltac:(lia)) as (l2 & -> & NE2 & K2).
    rewrite (const_mean l _ NE K), (const_mean l2 _ NE2 K2). cbn [INR]. lra.
  - apply ex_station_ready.
  - exists q', st'. split; [exact A|]. split; [exact B|]. destruct (V 1%nat 271%R 285%R) as (vals & E & _ & M1 & M2); [lia|reflexivity|reflexivity|lra|]. exists vals. auto.
Qed.

(** ** C92: humidity *)
Lemma values_by_position d0 n (s : series xr) i h : map fst s = hours_index d0 n -> (i < n)%nat -> (h < 24)%nat ->
  nth h (values_on (d0 + Z.of_nat i) s) NaN = nth (i * 24 + h) (map snd s) NaN.
Proof.
  intros EI Hi Hh. unfold values_on. unfold date_of. change us_day with (Z.of_nat 24 * us_hour).
  assert (PS : s = combine (hours_index d0 n) (map snd s)) by (rewrite <- EI; symmetry; apply combine_parts). rewrite PS at 1. clear PS.
  assert (L : length (map snd s) = (n * 24)%nat) by (rewrite map_length, <- (map_length fst s), EI, hours_length; reflexivity).
  set (v := map snd s) in *.
  assert (EV : combine (hours_index d0 n) v = map (fun k => (d0 * us_day + Z.of_nat k * us_hour, nth k v NaN)) (seq 0 (24 * n))).
  { unfold hours_index, grid. rewrite Nat.mul_comm in L. revert L. generalize (24 * n)%nat. clear. intros m L. subst m.
    induction v as [|x v IH] using rev_ind; [reflexivity|]. rewrite app_length. cbn [length]. rewrite Nat.add_1_r, seq_S, !map_app. cbn [map Nat.add].
    assert (CA : forall A B (a : list A) (b : list B) x y, length a = length b -> combine (a ++ [x]) (b ++ [y]) = combine a b ++ [(x, y)]).
    { clear. induction a as [|p a IH]; intros [|q b] x y L; cbn in *; try discriminate; [reflexivity|]. f_equal. apply IH. lia. }
    rewrite CA by (rewrite map_length, seq_length; reflexivity). rewrite IH. f_equal.
    - apply map_ext_in. intros k Hk. apply in_seq in Hk. rewrite app_nth1 by lia. reflexivity.
    - rewrite app_nth2, Nat.sub_diag by lia. reflexivity. }
  rewrite EV. change (Z.of_nat 24 * us_hour) with us_day.
  pose proof (values_on_map_hours (fun t => nth (Z.to_nat ((t - d0 * us_day) / us_hour)) v NaN) d0 n i Hi) as VM. unfold values_on, date_of in VM.
  assert (EM : map (fun k => (d0 * us_day + Z.of_nat k * us_hour, nth k v NaN)) (seq 0 (24 * n)) = map (fun t => (t, nth (Z.to_nat ((t - d0 * us_day) / us_hour)) v NaN)) (hours_index d0 n)).
  { unfold hours_index, grid. rewrite map_map. apply map_ext. intro k. do 2 f_equal. replace (d0 * us_day + Z.of_nat k * us_hour - d0 * us_day) with (Z.of_nat k * us_hour) by lia.
    rewrite Z.div_mul by (unfold us_hour; lia). lia. }
  rewrite EM, VM. rewrite (nth_indep _ NaN ((fun h => nth (Z.to_nat ((stamp (d0 + Z.of_nat i) h - d0 * us_day) / us_hour)) v NaN) O)) by (rewrite map_length, seq_length; exact Hh).
  rewrite (map_nth (fun h => nth (Z.to_nat ((stamp (d0 + Z.of_nat i) h - d0 * us_day) / us_hour)) v NaN)), seq_nth by exact Hh. cbn [Nat.add]. f_equal.
  unfold stamp. replace ((d0 + Z.of_nat i) * us_day + Z.of_nat h * us_hour - d0 * us_day) with (Z.of_nat (i * 24 + h) * us_hour) by (unfold us_day, us_hour; lia).
  rewrite Z.div_mul by (unfold us_hour; lia). lia.
Qed.
Lemma frame_temp st d0 n dd f : ready st d0 n dd -> hourly_column st "temp" = Some (map f (hours_index d0 n)) ->
  exists d, s_disagg st = Some d /\ fcol "temp" d = Ok (map (fun t => (t, f t)) (hours_index d0 n)).
Proof.
  intros (_ & _ & _ & d & ED & EI & _) HT. exists d. split; [exact ED|]. unfold hourly_column in HT. rewrite ED in HT. unfold fcol. rewrite HT, EI, combine_map_id. reflexivity.
Qed.
(** after a successful calibration the regression methods are available and use the fitted coefficients *)
Theorem C92_formulas cf mb fc lr pc e q q' st d0 n dd tmin f a0 a1 : run_stat cf mb fc lr pc e q QHum = (q', None) ->
  q_a0 q' = Some (Fin a0) -> q_a1 q' = Some (Fin a1) ->
  ready st d0 n dd -> has_column dd "tmin" tmin -> hourly_column st "temp" = Some (map f (hours_index d0 n)) ->
  (exists st', st_humidity e q' st "dewpoint_regression" false = (st', None) /\ ready st' d0 n dd /\
     forall i h m T, (i < n)%nat -> (h < 24)%nat -> nth i tmin NaN = Fin m -> f (stamp (d0 + Z.of_nat i) h) = Fin T ->
       (0.53 < a0 + a1 * m)%R -> (0.53 < T)%R ->
       nth h (hourly_on st' "hum" (d0 + Z.of_nat i)) NaN = Fin (Rmin 100 (100 * svp (a0 + a1 * m) / svp T))) /\
  (exists st', st_humidity e q' st "linear_dewpoint_variation" false = (st', None) /\ ready st' d0 n dd /\
     forall i h m m' T, (i < n)%nat -> (h < 24)%nat -> nth i tmin NaN = Fin m -> next_day tmin i = Fin m' -> f (stamp (d0 + Z.of_nat i) h) = Fin T ->
       let td := (a0 + a1 * m + INR h / 24 * (a1 * m' - a1 * m) + dew_wave 12 (Z.of_nat h))%R in
       (0.53 < td)%R -> (0.53 < T)%R ->
       nth h (hourly_on st' "hum" (d0 + Z.of_nat i)) NaN = Fin (Rmin 100 (100 * svp td / svp T))).
Proof.
  intros RS E0 E1 RD HC HT. destruct (C89_humidity _ _ _ _ _ _ _ _ RS) as (dq & ps & s1 & s0 & _ & _ & _ & Q1 & Q0 & QK & _).
  destruct (frame_temp st d0 n dd f RD HT) as (d & ED & EF). assert (DF : day_frame dd d0 n) by (destruct RD as (N0 & _ & DI & _); split; assumption).
  assert (SD : s_daily st = Some dd) by apply RD. split.
  - destruct (C77_combined_by_position e dd d0 n tmin (map (fun t => (t, f t)) (hours_index d0 n)) a0 a1 (q_kr q') (q_mhp q') DF HC) as (out & EO & EI & V); [rewrite map_length, hours_length; reflexivity|].
    assert (EI' : map fst out = hours_index d0 n) by (rewrite EI, map_map; apply map_id).
    destruct (put_series_ready st d0 n dd "hum" out RD) as (st' & ES & RD' & _ & HO & _); [cbn; auto|exact EI'|].
    exists st'. split; [unfold st_humidity, daily_frame; rewrite SD, ED; cbn [bind]; rewrite EF; cbn [bind]; rewrite E0, E1; transitivity (finish "hum" (Ok out) st); [f_equal; exact EO|exact ES]|]. split; [exact RD'|].
    intros i h m T Hi Hh A B C D. rewrite HO, (values_by_position d0 n) by assumption. apply V; try assumption.
    rewrite map_map. cbn [snd]. unfold hours_index, grid. rewrite map_map.
    rewrite (nth_map_in _ (seq 0 (24 * n)) (i * 24 + h) O NaN) by (rewrite seq_length; lia). rewrite seq_nth by lia. rewrite <- B. f_equal. unfold stamp, us_day, us_hour. lia.
  - destruct (C79_linear_dewpoint e dd d0 n tmin f a0 a1 12 (q_mhp q') DF HC (or_intror eq_refl)) as (out & EO & EI & V).
    destruct (put_series_ready st d0 n dd "hum" out RD) as (st' & ES & RD' & _ & HO & _); [cbn; auto|exact EI|].
    exists st'. split; [unfold st_humidity, daily_frame; rewrite SD, ED; cbn [bind]; rewrite EF; cbn [bind]; rewrite E0, E1, QK; transitivity (finish "hum" (Ok out) st); [f_equal; exact EO|exact ES]|]. split; [exact RD'|].
    intros i h m m' T Hi Hh A B C td D1 D2. rewrite HO. apply (V i h m m' T); assumption.
Qed.
Print Assumptions C92_formulas.
(** the pairs of a record in which the dew point of each day is constant and a linear function of the day's minimum temperature *)
Lemma pairs_on_line d0 n (temp hum : Z -> R) lo c0 c1 ps :
  (forall i, (i < n)%nat -> is_min (map (fun h => temp (stamp (d0 + Z.of_nat i) h)) (seq 0 24)) (lo i)) ->
  (forall i h, (i < n)%nat -> (h < 24)%nat -> dewpoint1 (Fin (temp (stamp (d0 + Z.of_nat i) h))) (Fin (hum (stamp (d0 + Z.of_nat i) h))) = Fin (c0 + c1 * lo i)) ->
  is_pairs d0 n (fun t => Fin (temp t)) (fun t => dewpoint1 (Fin (temp t)) (Fin (hum t))) ps ->
  ps = finite_pairs (map (fun i => (lo i, c0 + c1 * lo i)%R) (seq 0 n)).
Proof.
  intros HM HD (parts & -> & F). unfold finite_pairs. rewrite map_map. cbn [fst snd].
  assert (K : forall l parts, (forall i, In i l -> (i < n)%nat) ->
    Forall2 (fun i p => day_pair (fins (map (fun h => Fin (temp (stamp (d0 + Z.of_nat i) h))) (seq 0 24))) (fins (map (fun h => dewpoint1 (Fin (temp (stamp (d0 + Z.of_nat i) h))) (Fin (hum (stamp (d0 + Z.of_nat i) h)))) (seq 0 24))) p) l parts ->
    concat parts = map (fun i => (Fin (lo i), Fin (c0 + c1 * lo i))) l).
  { clear F parts. induction l as [|i l IH]; intros parts HI F; inversion F as [|i' p l' parts' DP F']; subst; [reflexivity|]. cbn [concat map]. rewrite (IH parts') by (try exact F'; intros; apply HI; right; assumption).
    assert (Hi : (i < n)%nat) by (apply HI; left; reflexivity).
    replace (map (fun h => Fin (temp (stamp (d0 + Z.of_nat i) h))) (seq 0 24)) with (map Fin (map (fun h => temp (stamp (d0 + Z.of_nat i) h)) (seq 0 24))) in DP by (rewrite map_map; reflexivity).
    assert (ED : map (fun h => dewpoint1 (Fin (temp (stamp (d0 + Z.of_nat i) h))) (Fin (hum (stamp (d0 + Z.of_nat i) h)))) (seq 0 24) = map Fin (map (fun _ => (c0 + c1 * lo i)%R) (seq 0 24))).
    { rewrite map_map. apply map_ext_in. intros h Hh. apply in_seq in Hh. apply HD; lia. }
    rewrite ED, !fins_Fin in DP. destruct DP as [[[A|A] _]|(m & MN & _ & ->)]; [discriminate A|discriminate A|].
    rewrite (min_unique _ _ _ MN (HM i Hi)). rewrite (const_mean _ (c0 + c1 * lo i)%R); [reflexivity|discriminate|]. intros x Hx. apply in_map_iff in Hx as (h & <- & _). reflexivity. }
  apply K; [intros i Hi; apply in_seq in Hi; lia|exact F].
Qed.
(** such a record is reproduced by the station calibrated with it *)
Theorem C92_reproduces cf mb fc lr pc e q d st d0 n dd (temp hum : Z -> R) lo c0 c1 precip : least_squares lr ->
  (* the observations *)
  q_data q = Some d -> f_index d = hours_index d0 n ->
  assoc "temp" (f_cols d) = Some (map (fun t => Fin (temp t)) (hours_index d0 n)) ->
  assoc "hum" (f_cols d) = Some (map (fun t => Fin (hum t)) (hours_index d0 n)) ->
  assoc "precip" (f_cols d) = Some precip -> length precip = length (f_index d) -> numeric precip ->
  (forall t, In t (hours_index d0 n) -> 0.53 < temp t /\ 0 < hum t <= 100)%R ->
  (forall i, (i < n)%nat -> is_min (map (fun h => temp (stamp (d0 + Z.of_nat i) h)) (seq 0 24)) (lo i)) ->
  (forall i h, (i < n)%nat -> (h < 24)%nat -> dewpoint1 (Fin (temp (stamp (d0 + Z.of_nat i) h))) (Fin (hum (stamp (d0 + Z.of_nat i) h))) = Fin (c0 + c1 * lo i)) ->
  (exists i j, (i < n)%nat /\ (j < n)%nat /\ lo i <> lo j) ->
  (* the station has the same days: the minima, and the hourly temperatures *)
  ready st d0 n dd -> has_column dd "tmin" (map (fun i => Fin (lo i)) (seq 0 n)) ->
  hourly_column st "temp" = Some (map (fun t => Fin (temp t)) (hours_index d0 n)) ->
  exists q' st', run_stat cf mb fc lr pc e q QHum = (q', None) /\ q_a0 q' = Some (Fin c0) /\ q_a1 q' = Some (Fin c1) /\
    st_humidity e q' st "dewpoint_regression" false = (st', None) /\ ready st' d0 n dd /\
    forall i h, (i < n)%nat -> (h < 24)%nat -> let t := stamp (d0 + Z.of_nat i) h in
      (273.15 <= c0 + c1 * lo i \/ temp t < 273.15)%R ->
      nth h (hourly_on st' "hum" (d0 + Z.of_nat i)) NaN = Fin (hum t).
Proof.
  intros LS QD FI AT AH AP LP NP HB HM HD (i1 & i2 & Hi1 & Hi2 & NEQ) RD HC HT.
  assert (DEW : forall t, In t (hours_index d0 n) -> exists x, dewpoint1 (Fin (temp t)) (Fin (hum t)) = Fin x).
  { intros t Ht. destruct (HB t Ht) as (A & B & C). destruct (C32_dewpoint (temp t) (hum t) A B C) as (x & E & _). exists x. exact E. }
  destruct (pairs_of_record d d0 n (fun t => Fin (temp t)) (fun t => Fin (hum t)) FI AT AH) as (ps & EP & IP).
  { unfold numeric. apply Forall_forall. intros x Hx. apply in_map_iff in Hx as (t & <- & _). exact I. }
  { unfold numeric. apply Forall_forall. intros x Hx. apply in_map_iff in Hx as (t & <- & Ht). destruct (DEW t Ht) as (y & ->). exact I. }
  apply (pairs_on_line d0 n temp hum lo c0 c1) in IP; [|exact HM|exact HD]. subst ps.
  set (rs := map (fun i => (lo i, c0 + c1 * lo i)%R) (seq 0 n)) in *.
  assert (EL : lr (finite_pairs rs) = Ok (Fin c1, Fin c0)).
  { apply line_recovered; [exact LS| |].
    - exists (lo i1, c0 + c1 * lo i1)%R, (lo i2, c0 + c1 * lo i2)%R. split; [|split; [|exact NEQ]]; apply in_map_iff; [exists i1|exists i2]; (split; [reflexivity|apply in_seq; lia]).
    - intros p Hp. apply in_map_iff in Hp as (i & <- & _). reflexivity. }
  destruct (C76_table d precip (map (fun t => Fin (hum t)) (hours_index d0 n)) AP AH LP) as (tbl & ET & _).
  { rewrite map_length, FI. reflexivity. } { exact NP. } { unfold numeric. apply Forall_forall. intros x Hx. apply in_map_iff in Hx as (t & <- & _). exact I. }
  assert (RS : exists q', run_stat cf mb fc lr pc e q QHum = (q', None) /\ q_a0 q' = Some (Fin c0) /\ q_a1 q' = Some (Fin c1)).
  { cbn [run_stat]. unfold calc_humidity_stats, data_frame. rewrite QD. cbn [bind]. rewrite EP. cbn [bind]. rewrite EL. cbn [with_hum q_data]. rewrite QD. cbn [bind]. rewrite ET. eexists. split; [reflexivity|]. split; reflexivity. }
  destruct RS as (q' & RS & Q0 & Q1).
  destruct (C92_formulas cf mb fc lr pc e q q' st d0 n dd _ (fun t => Fin (temp t)) c0 c1 RS Q0 Q1 RD HC HT) as [(st' & ES & RD' & V) _].
  exists q', st'. split; [exact RS|]. split; [exact Q0|]. split; [exact Q1|]. split; [exact ES|]. split; [exact RD'|].
  intros i h Hi Hh t HX. assert (It : In t (hours_index d0 n)) by (apply hours_In; lia). destruct (HB t It) as (A & B & C).
  destruct (C32_dewpoint (temp t) (hum t) A B C) as (x & E & X1 & _ & _ & X2 & _). pose proof (HD i h Hi Hh) as ED. fold t in ED. rewrite E in ED. injection ED as ->.
  rewrite (V i h (lo i) (temp t)); try assumption; [|rewrite (nth_map_in _ (seq 0 n) i O NaN) by (rewrite seq_length; exact Hi); rewrite seq_nth by exact Hi; reflexivity|reflexivity].
  specialize (X2 HX). rewrite !vapor_pressure1_Fin in X2 by assumption. injection X2 as X2. f_equal. pose proof (svp_pos (temp t)).
  replace (100 * svp (c0 + c1 * lo i) / svp (temp t))%R with (hum t) by (field_simplify_eq; [lra|lra]). rewrite Rmin_right by lra. reflexivity.
Qed.
Print Assumptions C92_reproduces.
(** categorical means: an hour of the station gets the mean of the observations in its month, at its hour, on days that
    are wet (dry) like its own; a combination without observations makes the call fail *)
Theorem C92_categories cf mb fc lr pc e q q' d st d0 n dd amounts precip hum : run_stat cf mb fc lr pc e q QHum = (q', None) ->
  q_data q = Some d -> assoc "precip" (f_cols d) = Some precip -> assoc "hum" (f_cols d) = Some hum ->
  length precip = length (f_index d) -> length hum = length (f_index d) -> numeric precip -> numeric hum ->
  ready st d0 n dd -> has_column dd "precip" amounts -> (exists v, hourly_column st "temp" = Some v) ->
  let cls := fun i h => class_values (combine (f_index d) precip) (combine (f_index d) hum) (month_of_day (d0 + Z.of_nat i)) (Z.of_nat h) (wet_amount (nth i amounts NaN)) in
  (forall i h, (i < n)%nat -> (h < 24)%nat -> cls i h = [] -> st_humidity e q' st "month_hour_precip_mean" false = (st, Some KeyError)) /\
  ((forall i h, (i < n)%nat -> (h < 24)%nat -> cls i h <> []) ->
   exists st', st_humidity e q' st "month_hour_precip_mean" false = (st', None) /\ ready st' d0 n dd /\
     forall i h, (i < n)%nat -> (h < 24)%nat ->
       nth h (hourly_on st' "hum" (d0 + Z.of_nat i)) NaN = match fins (cls i h) with [] => NaN | _ => Fin (limited (Rmean (fins (cls i h)))) end).
Proof.
  intros RS QD AP AH LP LH NP NH RD HC (tv & HT). cbv zeta.
  set (cls := fun i h => class_values (combine (f_index d) precip) (combine (f_index d) hum) (month_of_day (d0 + Z.of_nat i)) (Z.of_nat h) (wet_amount (nth i amounts NaN))).
  destruct (C89_humidity _ _ _ _ _ _ _ _ RS) as (dq & ps & s1 & s0 & QD' & _ & _ & _ & _ & _ & (tbl & ET & QM) & _). rewrite QD in QD'. injection QD' as <-.
  destruct (C76_table d precip hum AP AH LP LH NP NH) as (tbl' & ET' & TB). rewrite ET in ET'. injection ET' as <-. cbv zeta in TB.
  assert (DF : day_frame dd d0 n) by (destruct RD as (N0 & _ & DI & _); split; assumption). assert (SD : s_daily st = Some dd) by apply RD.
  destruct (s_disagg st) as [dh|] eqn:EDH; [|unfold hourly_column in HT; rewrite EDH in HT; discriminate HT]. unfold hourly_column in HT. rewrite EDH in HT.
  split.
  - intros i h Hi Hh EC. destruct (TB (month_of_day (d0 + Z.of_nat i)) (Z.of_nat h) (wet_amount (nth i amounts NaN))) as (T1 & _ & _).
    unfold st_humidity, daily_frame. rewrite SD, EDH. cbn [bind]. unfold fcol at 1. rewrite HT. cbn [bind]. rewrite QM.
    rewrite (C76_missing_class e dd d0 n amounts _ _ _ _ tbl false i h DF HC Hi Hh); [reflexivity|]. apply T1. exact EC.
  - intro NE. set (v := fun i h => match fins (cls i h) with [] => NaN | _ => Fin (Rmean (fins (cls i h))) end).
    destruct (C76_lookup e dd d0 n amounts (Some (combine (f_index dh) tv)) (q_a0 q') (q_a1 q') (q_kr q') tbl v DF HC) as (out & EO & EI & V).
    { intros i h Hi Hh. destruct (TB (month_of_day (d0 + Z.of_nat i)) (Z.of_nat h) (wet_amount (nth i amounts NaN))) as (_ & T2 & T3). fold (cls i h) in T2, T3. unfold v.
      destruct (fins (cls i h)) as [|a l] eqn:EF; [apply T3; [apply NE; assumption|reflexivity]|]. rewrite T2 by discriminate. reflexivity. }
    destruct (put_series_ready st d0 n dd "hum" out RD) as (st' & ES & RD' & _ & HO & _); [cbn; auto|exact EI|].
    exists st'. split; [unfold st_humidity, daily_frame; rewrite SD, EDH; cbn [bind]; unfold fcol at 1; rewrite HT; cbn [bind]; rewrite QM; transitivity (finish "hum" (Ok out) st); [f_equal; exact EO|exact ES]|].
    split; [exact RD'|]. intros i h Hi Hh. rewrite HO, V by assumption. unfold v. destruct (fins (cls i h)) as [|a l]; reflexivity.
Qed.
Print Assumptions C92_categories.
(** two days with a diurnal cycle of 23 K and dew points 280 + day/2 *)
Lemma dew_inverse T d : (273.15 <= d)%R -> (d <= T)%R -> dewpoint1 (Fin T) (Fin (100 * svp d / svp T)) = Fin d /\ (0 < 100 * svp d / svp T <= 100)%R.
Proof.
  intros H1 H2. pose proof (svp_pos T) as PT. pose proof (svp_pos d) as PD.
  assert (B : (svp d <= svp T)%R) by (destruct (Req_dec d T) as [->|N]; [lra|left; apply svp_incr; lra]).
  assert (B1 : (0 < 100 * svp d / svp T)%R) by (apply Rdiv_lt_0_compat; lra).
  assert (B2 : (100 * svp d / svp T <= 100)%R) by (apply (Rmult_le_reg_r (svp T)); [lra|]; unfold Rdiv; rewrite Rmult_assoc, Rinv_l by lra; lra).
  split; [|split; assumption]. rewrite dewpoint1_Fin by (try assumption; lra). destruct (Rle_dec 273.15 T); [|lra]. f_equal.
  assert (EL : (ln (100 * svp d / svp T / 100) = mag 17.62 243.12 (d - 273.15) - mag 17.62 243.12 (T - 273.15))%R).
  { replace (100 * svp d / svp T / 100)%R with (svp d / svp T)%R by (field; lra). unfold svp. destruct (Rle_dec 273.15 T); [|lra]. destruct (Rle_dec 273.15 d); [|lra].
    replace (6.112 * exp (mag 17.62 243.12 (d - 273.15)) / (6.112 * exp (mag 17.62 243.12 (T - 273.15))))%R with (exp (mag 17.62 243.12 (d - 273.15) - mag 17.62 243.12 (T - 273.15))).
    - apply ln_exp.
    - unfold Rminus at 1. rewrite exp_plus, exp_Ropp. field. split; [apply Rgt_not_eq, exp_pos|lra]. }
  rewrite EL. replace (mag 17.62 243.12 (T - 273.15) + (mag 17.62 243.12 (d - 273.15) - mag 17.62 243.12 (T - 273.15)))%R with (mag 17.62 243.12 (d - 273.15)) by ring.
  rewrite unmag_mag by lra. lra.
Qed.
Definition ex_T (t : Z) : R := (280 + IZR (date_of t) + IZR (hour_of t))%R.
Definition ex_H (t : Z) : R := (100 * svp (280 + IZR (date_of t) / 2) / svp (ex_T t))%R.
Definition ex_hum_frame : dframe xr :=
  Build_dframe (hours_index 0 2) [("temp"%string, map (fun t => Fin (ex_T t)) (hours_index 0 2)); ("hum"%string, map (fun t => Fin (ex_H t)) (hours_index 0 2));
    ("precip"%string, map (fun _ => Fin 0) (hours_index 0 2))].
Definition ex_hum_stats : sstats := with_precip (new_stats None None None) (Some ex_hum_frame) None None.
Definition ex_hum_day : dframe xr := Build_dframe (daily_index 0 2) [("tmin"%string, [Fin 280; Fin 281])].
Definition ex_hum_station : station :=
  {| s_lon := None; s_lat := None; s_tz := None; s_stats := O; s_daily := Some ex_hum_day;
     s_disagg := Some (put_column "temp" (map (fun t => Fin (ex_T t)) (hours_index 0 2)) (empty_hourly (hours_index 0 2))); s_sun := None |}.
Example C92_met cf mb fc pc : exists q' st', run_stat cf mb fc ols pc modern ex_hum_stats QHum = (q', None) /\
  st_humidity modern q' ex_hum_station "dewpoint_regression" false = (st', None) /\ nth 12 (hourly_on st' "hum" 1) NaN = Fin (100 * svp 280.5 / svp 293).
Proof.
  assert (HT : forall i h, (i < 2)%nat -> (h < 24)%nat -> ex_T (stamp (0 + Z.of_nat i) h) = (280 + INR i + INR h)%R).
  { intros i h Hi Hh. unfold ex_T. rewrite stamp_date, stamp_hour by exact Hh. rewrite Z.add_0_l, !INR_IZR_INZ. reflexivity. }
  assert (HH : forall i h, (i < 2)%nat -> (h < 24)%nat -> ex_H (stamp (0 + Z.of_nat i) h) = (100 * svp (280 + INR i / 2) / svp (280 + INR i + INR h))%R).
  { intros i h Hi Hh. unfold ex_H. rewrite HT by assumption. rewrite stamp_date by exact Hh. rewrite Z.add_0_l, (INR_IZR_INZ i). reflexivity. }
  assert (HD : forall i h, (i < 2)%nat -> (h < 24)%nat -> dewpoint1 (Fin (ex_T (stamp (0 + Z.of_nat i) h))) (Fin (ex_H (stamp (0 + Z.of_nat i) h))) = Fin (280 + INR i / 2) /\ (0 < ex_H (stamp (0 + Z.of_nat i) h) <= 100)%R).
  { intros i h Hi Hh. rewrite HT, HH by assumption. pose proof (pos_INR i). pose proof (pos_INR h). apply dew_inverse; lra. }
  destruct (C92_reproduces cf mb fc ols pc modern ex_hum_stats ex_hum_frame ex_hum_station 0 2 ex_hum_day ex_T ex_H (fun i => (280 + INR i)%R) 140 (1 / 2) (map (fun _ => Fin 0) (hours_index 0 2)) ols_least_squares) as (q' & st' & A & _ & _ & B & _ & V).
  - reflexivity.
  - reflexivity.
  - reflexivity.
  - reflexivity.
  - reflexivity.
  - reflexivity.
  - unfold numeric. apply Forall_forall. intros x Hx. apply in_map_iff in Hx as (t & <- & _). exact I.
  - intros t Ht. unfold hours_index in Ht. apply grid_In in Ht as (k & Hk & ->).
    replace (0 * us_day + Z.of_nat k * us_hour) with (stamp (0 + Z.of_nat (k / 24)) (k mod 24)).
    2: { unfold stamp, us_day, us_hour. pose proof (Nat.div_mod k 24 ltac:(lia)). lia. }
    assert (K1 : (k / 24 < 2)%nat) by (apply Nat.div_lt_upper_bound; lia). assert (K2 : (k mod 24 < 24)%nat) by (apply Nat.mod_upper_bound; lia).
    split; [rewrite HT by assumption; pose proof (pos_INR (k / 24)); pose proof (pos_INR (k mod 24)); lra|]. apply HD; assumption.
  - intros i Hi. split.
    + apply in_map_iff. exists O. split; [rewrite HT by lia; cbn [INR]; lra|apply in_seq; lia].
    + intros x Hx. apply in_map_iff in Hx as (h & <- & Hh). apply in_seq in Hh. rewrite HT by lia. pose proof (pos_INR h). lra.
  - intros i h Hi Hh. destruct (HD i h Hi Hh) as [-> _]. f_equal. lra.
  - exists 0%nat, 1%nat. split; [lia|]. split; [lia|]. cbn [INR]. lra.
  - split; [discriminate|]. split; [reflexivity|]. split; [reflexivity|]. eexists. split; [reflexivity|]. split; reflexivity.
  - split; [|reflexivity]. cbn [ex_hum_day f_cols assoc String.eqb Ascii.eqb Bool.eqb seq map INR]. repeat f_equal; lra.
  - reflexivity.
  - exists q', st'. split; [exact A|]. split; [exact B|]. change 1 with (0 + Z.of_nat 1). rewrite V; [|lia|lia|left; cbn [INR]; lra].
    rewrite HH by lia. do 2 f_equal; [f_equal|]; f_equal; cbn [INR]; lra.
Qed.
