(** Property C119: what each statistics call needs, and what it raises when something is missing. *)
From Coq Require Import String ZArith List Bool Reals Sorted Lia Lra.
From Verif Require Import Py Num Cal Series Frame SpecBase TimeProofs IndexProofs DaysProofs AggModel UtilModel UtilModel2 SpecUtil UtilProofs
  CascadeModel PrecipModel RadModel SpecRad HumModel HumProofs WindModel StationModel SpecStation StationProofs StationDaily
  TempProofs SpecCalib PropsHum PropsStation PropsStation2 PropsStation3 PropsStation5 SpecNeeds.
Import ListNotations.
Open Scope Z_scope.

Definition failure (r : sstats * option exn) : option exn := snd r.
(** the columns of the hourly record are as long as its index *)
Definition even_record (q : sstats) : Prop :=
  forall d c v, q_data q = Some d -> assoc c (f_cols d) = Some v -> length v = length (f_index d).

Lemma has_assoc d c : has d c = given (assoc c (f_cols d)).
Proof.
  unfold has, one_of. induction (f_cols d) as [|[k v] l IH]; [reflexivity|]. cbn [map fst existsb assoc]. rewrite String.eqb_sym.
  destruct (String.eqb k c); [reflexivity|]. exact IH.
Qed.

(** ** Wind *)
Theorem C119_wind cf mb fc lr pc e q : numeric (map snd (record_of q "wind")) ->
  failure (run_stat cf mb fc lr pc e q QWind) =
    match first_missing (fit_wind_needs (q_data q)) with
    | Some x => Some x
    | None => match fc (wind_rows (record_of q "wind")) with Ok _ => None | Err x => Some x end
    end.
Proof.
  intro N. unfold failure. rewrite C89_wind_outcome by exact N. unfold fit_wind_needs. cbn [first_missing]. destruct (q_data q) as [d|]; [|reflexivity].
  cbn [given has_in]. rewrite has_assoc. destruct (assoc "wind" (f_cols d)); reflexivity.
Qed.
Print Assumptions C119_wind.

(** ** Temperature *)
Theorem C119_temperature cf mb fc lr pc e q :
  failure (run_stat cf mb fc lr pc e q QTemp) = first_missing (fit_temp_needs (q_data q) (q_lon q) (q_lat q) (q_tz q)).
Proof.
  unfold failure, fit_temp_needs. cbn [run_stat first_missing]. unfold calc_temperature_stats, data_frame. destruct (q_data q) as [d|]; [|reflexivity].
  cbn [given has_in bind]. rewrite has_assoc. unfold fcol. destruct (assoc "temp" (f_cols d)); [|reflexivity]. cbn [given bind]. unfold located.
  destruct (q_lon q), (q_lat q), (q_tz q); reflexivity.
Qed.
Print Assumptions C119_temperature.

(** ** Humidity *)
Lemma table_ok d precip hum : assoc "precip" (f_cols d) = Some precip -> assoc "hum" (f_cols d) = Some hum ->
  length precip = length (f_index d) -> length hum = length (f_index d) -> exists tbl, calculate_month_hour_precip_mean d = Ok tbl.
Proof.
  intros EP EH LP LH. set (ps := combine (f_index d) precip). set (hs := combine (f_index d) hum).
  assert (IP : map fst ps = f_index d) by (apply combine_fst; exact LP). assert (IH : map fst hs = f_index d) by (apply combine_fst; exact LH).
  assert (WD : forall t, In t (f_index d) -> wet_day ps t = Ok (nansum (values_on (date_of t) ps) >? n0)%num).
  { intros t Ht. unfold wet_day. rewrite <- IP in Ht. rewrite (resample_day nansum ps t Ht). reflexivity. }
  unfold calculate_month_hour_precip_mean, fcol. rewrite EP, EH. cbn [bind]. fold ps hs.
  rewrite (mapM_Ok _ (fun p => ((month_of (fst p), hour_of (fst p), (nansum (values_on (date_of (fst p)) ps) >? n0)%num), snd p))).
  2: { intros p Hp. rewrite WD; [reflexivity|]. rewrite <- IH. apply in_map, Hp. }
  cbn [bind]. eexists. reflexivity.
Qed.
(** the pairs given to the regression are those of the record when it covers whole days *)
Definition pairs_of (q : sstats) (ps : list (xr * xr)) : Prop :=
  forall d d0 n temp hum, q_data q = Some d -> f_index d = hours_index d0 n ->
    assoc "temp" (f_cols d) = Some (map temp (hours_index d0 n)) -> assoc "hum" (f_cols d) = Some (map hum (hours_index d0 n)) ->
    let dew := fun t => dewpoint1 (temp t) (hum t) in
    numeric (map temp (hours_index d0 n)) -> numeric (map dew (hours_index d0 n)) -> is_pairs d0 n temp dew ps.
Theorem C119_humidity cf mb fc lr pc e q : even_record q ->
  exists ps, pairs_of q ps /\
  failure (run_stat cf mb fc lr pc e q QHum) =
    match first_missing (fit_hum_needs (q_data q)) with
    | Some x => Some x
    | None => match lr ps with Err x => Some x | Ok _ => first_missing (hum_table_needs (q_data q)) end
    end.
Proof.
  intro EV. unfold failure, fit_hum_needs, hum_table_needs, pairs_of. cbn [run_stat first_missing]. unfold calc_humidity_stats, data_frame.
  destruct (q_data q) as [d|] eqn:ED; [|exists []; split; [discriminate|reflexivity]]. cbn [given has_in bind]. rewrite !has_assoc.
  destruct (assoc "temp" (f_cols d)) as [temp|] eqn:ET; [|unfold dewpoint_pairs; rewrite ET; exists []; split; [|reflexivity]; intros d' d0 n t h X; injection X as <-; intros _ X; congruence].
  destruct (assoc "hum" (f_cols d)) as [hum|] eqn:EH; [|unfold dewpoint_pairs; rewrite ET, EH; exists []; split; [|reflexivity]; intros d' d0 n t h X; injection X as <-; intros _ _ X; congruence].
  cbn [given andb]. assert (X : exists ps, dewpoint_pairs d = Ok ps).
  { unfold dewpoint_pairs. rewrite ET, EH. unfold dewpoint_temperature. rewrite (EV d "temp"%string temp ED ET), (EV d "hum"%string hum ED EH), Nat.eqb_refl. cbn [bind]. eexists. reflexivity. }
  destruct X as (ps & EP). exists ps. split.
  - intros d' d0 n t h X. injection X as <-. intros EI ET' EH'. cbv zeta. intros NT ND.
    destruct (pairs_of_record d d0 n t h EI ltac:(congruence) ltac:(congruence)) as (ps' & E' & IP); [assumption..|]. congruence.
  - rewrite EP. cbn [bind]. destruct (lr ps) as [[a b]|x]; [|reflexivity]. cbn [with_hum q_data]. rewrite ED. cbn [bind].
    destruct (assoc "precip" (f_cols d)) as [precip|] eqn:EC; cbn [given].
    + destruct (table_ok d precip hum EC EH (EV d _ _ ED EC) (EV d _ _ ED EH)) as (tbl & ->). reflexivity.
    + unfold calculate_month_hour_precip_mean, fcol. rewrite EC. reflexivity.
Qed.
Print Assumptions C119_humidity.

(** ** Precipitation *)
Theorem C119_precipitation cf mb fc lr pc e q months avg perc :
  (forall x, first_missing (casc_needs (q_data q) (seasons_arg months)) = Some x -> failure (run_stat cf mb fc lr pc e q (QPrecip months avg perc)) = Some x) /\
  (months = Some [] -> failure (run_stat cf mb fc lr pc e q (QPrecip months avg perc)) = None) /\
  (forall z rows, pc perc = np_percentile z -> 0 <= z <= 100 -> rain_record q rows -> good_seasons (seasons_arg months) ->
     first_missing (casc_needs (q_data q) (seasons_arg months)) = None /\
     let enough_rain := forall k mo, nth_error (seasons_arg months) k = Some mo -> enough 5 (season_amounts k mo rows) in
     (enough_rain -> failure (run_stat cf mb fc lr pc e q (QPrecip months avg perc)) = None) /\
     (~ enough_rain -> failure (run_stat cf mb fc lr pc e q (QPrecip months avg perc)) = Some IndexError)).
Proof.
  split; [|split].
  - intro x. unfold failure. cbn [run_stat]. unfold calc_precipitation_stats. fold all_months. change [Some all_months] with one_season. fold (seasons_arg months).
    destruct (seasons_arg months) as [|s ms]; [discriminate|]. cbn [casc_needs first_missing]. destruct s as [[|m r]|]; [intro H; injection H as <-; reflexivity| |];
    (destruct (q_data q) as [d|]; [|intro H; injection H as <-; reflexivity]); cbn [given has_in]; rewrite has_assoc;
    (destruct (assoc "precip" (f_cols d)); [intro H; discriminate H|intro H; injection H as <-; reflexivity]).
  - intros ->. reflexivity.
  - intros z rows HP Hz RR GS. split.
    + destruct RR as ((d & QD & _ & EO) & _). rewrite QD. destruct (seasons_arg months) as [|s ms]; [reflexivity|]. cbn [casc_needs first_missing given has_in].
      rewrite has_assoc, EO. cbn [given]. destruct (GS s (or_introl eq_refl)) as [NE _]. destruct s as [[|]|]; [exfalso; apply NE; reflexivity|reflexivity..].
    + pose proof (C93_calibrates cf mb fc lr pc e q rows months avg perc z HP Hz RR GS) as C. destruct (run_stat _ _ _ _ _ _ _ _) as [q' err]. cbv zeta. cbn [failure snd].
      destruct C as [C D]. split; [intro E; apply C, E|]. intro N. destruct D as [D|D]; [exfalso; apply N, C, D|exact D].
Qed.
Print Assumptions C119_precipitation.

(** ** Radiation *)
Lemma fit_loop_err fit rs tbl tbl' x : fit_loop fit rs tbl = (tbl', Some x) -> exists ms, In ms rs /\ fit ms = Err x.
Proof.
  revert tbl. induction rs as [|ms rs IH]; intro tbl; [discriminate|]. cbn [fit_loop]. destruct (fit ms) as [v|y] eqn:E.
  - intro H. destruct (IH _ H) as (m & I & F). exists m. split; [right; exact I|exact F].
  - intro H. injection H as _ ->. exists ms. split; [left; reflexivity|exact E].
Qed.
(** beyond what is missing, only the fits can raise: the one against sunshine when the daily data have the column and day
    lengths are given, the one against temperatures when the daily data have both columns *)
Theorem C119_radiation cf mb fc lr pc e q daily day_length how : (forall dd, daily = Some dd -> exists d0 n, SpecRad.day_frame dd d0 n) ->
  let r := failure (run_stat cf mb fc lr pc e q (QRad daily day_length how)) in
  let missing := first_missing (fit_rad_needs (q_data q) daily (q_lon q) (q_lat q) (q_tz q) how) in
  (forall x, missing = Some x -> r = Some x) /\
  (missing = None -> forall x, r = Some x ->
     (has_in daily "ssd" = true /\ day_length <> None /\ exists rows, cf rows = Err x) \/
     (has_in daily "tmin" = true /\ has_in daily "tmax" = true /\ exists rows, mb rows = Err x)).
Proof.
  intro DF. cbv zeta. unfold failure. cbn [run_stat]. unfold st_radiation_stats, calc_radiation_stats, fit_rad_needs, one_of. cbn [List.app first_missing existsb].
  rewrite orb_false_r, orb_assoc. destruct (String.eqb how "all" || String.eqb how "seasonal" || String.eqb how "monthly") eqn:EH.
  2: { cbn [negb snd]. split; [intros x H; exact H|discriminate]. }
  cbn [negb]. destruct (q_data q) as [d|]; [|cbn [given snd]; split; [intros x H; exact H|discriminate]]. cbn [given has_in]. rewrite (has_assoc d "glob").
  change (fcol "glob" d) with (match assoc "glob" (f_cols d) with Some v => Ok (combine (f_index d) v) | None => Err AttributeError end). destruct (assoc "glob" (f_cols d)) as [glob|]; [|cbn [given snd]; split; [intros x H; exact H|discriminate]]. cbn [given].
  destruct daily as [dd|]; [|cbn [given first_missing snd]; split; [discriminate|intros _ x H; discriminate H]]. cbn [given first_missing has_in].
  destruct (DF dd eq_refl) as (d0 & n & N0 & DI). rewrite DI, hourly_index_contiguous by exact N0. unfold located.
  destruct (q_lon q) as [lon|]; [|cbn [given andb snd]; split; [intros x H; exact H|discriminate]].
  destruct (q_lat q) as [lat|]; [|cbn [given andb snd]; split; [intros x H; exact H|discriminate]].
  destruct (q_tz q) as [tz|]; [|cbn [given andb snd]; split; [intros x H; exact H|discriminate]]. cbn [given andb].
  destruct (month_ranges how) as [ranges once]. rewrite !has_assoc.
  split; [discriminate|]. intros _ x.
  destruct (assoc "ssd" (f_cols dd)) as [ssd|] eqn:ES; [destruct day_length as [dl|]; [match goal with |- context [fit_loop ?f ranges ?t] => destruct (fit_loop f ranges t) as [tbl [y|]] eqn:EL end|]|].
  - cbn [snd]. intro H. injection H as ->. left. split; [reflexivity|]. split; [discriminate|]. apply fit_loop_err in EL as (ms & _ & F). eexists. exact F.
  - destruct (assoc "tmin" (f_cols dd)), (assoc "tmax" (f_cols dd)); cbn [andb]; try discriminate.
    match goal with |- context [fit_loop ?f (if once then [] else ranges) ?t] => destruct (fit_loop f (if once then [] else ranges) t) as [tbl2 [y|]] eqn:EL2 end; [|discriminate]. cbn [snd]. intro H. injection H as ->. right. apply fit_loop_err in EL2 as (ms & _ & F). repeat split. eexists. exact F.
  - destruct (assoc "tmin" (f_cols dd)), (assoc "tmax" (f_cols dd)); cbn [andb]; try discriminate.
    match goal with |- context [fit_loop ?f ranges ?t] => destruct (fit_loop f ranges t) as [tbl2 [y|]] eqn:EL2 end; [|discriminate]. cbn [snd]. intro H. injection H as ->. right. apply fit_loop_err in EL2 as (ms & _ & F). repeat split. eexists. exact F.
  - destruct (assoc "tmin" (f_cols dd)), (assoc "tmax" (f_cols dd)); cbn [andb]; try discriminate.
    match goal with |- context [fit_loop ?f ranges ?t] => destruct (fit_loop f ranges t) as [tbl2 [y|]] eqn:EL2 end; [|discriminate]. cbn [snd]. intro H. injection H as ->. right. apply fit_loop_err in EL2 as (ms & _ & F). repeat split. eexists. exact F.
Qed.
Print Assumptions C119_radiation.

(** ** No record at all: five calls, four exceptions *)
Theorem C119_no_record cf mb fc lr pc e q : q_data q = None ->
  failure (run_stat cf mb fc lr pc e q QWind) = Some AttributeError /\
  failure (run_stat cf mb fc lr pc e q QTemp) = Some AttributeError /\
  failure (run_stat cf mb fc lr pc e q QHum) = Some TypeError /\
  (forall avg perc, failure (run_stat cf mb fc lr pc e q (QPrecip None avg perc)) = Some AttributeError) /\
  (forall d l h, failure (run_stat cf mb fc lr pc e q (QRad d l h)) =
     Some (if one_of h ["all"; "seasonal"; "monthly"]%string then AttributeError else AssertionError)).
Proof.
  intro D. assert (EV : even_record q) by (intros d c v X; congruence). split; [|split; [|split; [|split]]].
  - rewrite C119_wind; [rewrite D; reflexivity|]. unfold record_of. rewrite D. constructor.
  - rewrite C119_temperature, D. reflexivity.
  - destruct (C119_humidity cf mb fc lr pc e q EV) as (ps & _ & ->). rewrite D. reflexivity.
  - intros avg perc. apply (proj1 (C119_precipitation cf mb fc lr pc e q None avg perc)). rewrite D. reflexivity.
  - intros d l h. unfold failure. cbn [run_stat]. unfold st_radiation_stats, calc_radiation_stats, one_of. cbn [existsb]. rewrite D.
    destruct (String.eqb h "all"), (String.eqb h "seasonal"), (String.eqb h "monthly"); reflexivity.
Qed.
Print Assumptions C119_no_record.
Example C119_no_record_met lon lat tz : q_data (new_stats lon lat tz) = None.
Proof. reflexivity. Qed.

(** the record of two days of [ex_calib] lacks only radiation *)
Example C119_met : even_record ex_calib /\ numeric (map snd (record_of ex_calib "wind")) /\
  first_missing (fit_wind_needs (q_data ex_calib)) = None /\
  first_missing (fit_temp_needs (q_data ex_calib) (q_lon ex_calib) (q_lat ex_calib) (q_tz ex_calib)) = None /\
  first_missing (fit_hum_needs (q_data ex_calib)) = None /\ first_missing (hum_table_needs (q_data ex_calib)) = None /\
  first_missing (casc_needs (q_data ex_calib) (seasons_arg None)) = None /\
  first_missing (fit_rad_needs (q_data ex_calib) None None None None "all") = Some AttributeError.
Proof.
  assert (QD : q_data ex_calib = Some ex_frame) by reflexivity. split; [|split].
  - intros d c v E A. rewrite QD in E. injection E as <-. apply assoc_in in A. change (f_index ex_frame) with (hours_index 0 2).
    unfold ex_frame in A. cbn [f_cols] in A. destruct A as [A|[A|[A|[A|[]]]]]; apply pair_equal_spec in A as [_ <-]; apply map_length.
  - rewrite (ex_record "wind" (map ex_wind (hours_index 0 2)) eq_refl), combine_map_id. rewrite map_map. unfold numeric. apply Forall_forall. intros x Hx.
    apply in_map_iff in Hx as (t & <- & _). cbn [snd]. unfold ex_wind. destruct (hour_of t =? 2); exact I.
  - rewrite QD. repeat split.
Qed.

(** a record without rain: the calculation fails with IndexError, the missing amount is now a zero (C84) *)
Definition ex_dry : sstats := fst (run_stat (fun _ => Err ValueError) (fun _ => Err ValueError) (fun _ => Err ValueError) (fun _ => Err ValueError) (fun _ _ => Err ValueError)
  modern (new_stats None None None) (QData (VFrame {| p_datetime := true; p_freq := false; p_data := Build_dframe [0; us_hour] [("precip"%string, [NaN; Fin 0])] |}))).
Example C84_zeros_met cf mb fc lr pc perc avg : pc perc = np_percentile 50 -> exists q',
  run_stat cf mb fc lr pc modern ex_dry (QPrecip None avg perc) = (q', Some IndexError) /\
  q_data ex_dry = Some (Build_dframe [0; us_hour] [("precip"%string, [NaN; Fin 0])]) /\
  q_data q' = Some (Build_dframe [0; us_hour] [("precip"%string, [Fin 0; Fin 0])]).
Proof.
  intro HP. rewrite (precip_stats_shape cf mb fc lr pc modern ex_dry None avg perc (Build_dframe [0; us_hour] [("precip"%string, [NaN; Fin 0])]) [NaN; Fin 0] eq_refl eq_refl);
    [|intros mo X; injection X as <-; discriminate|discriminate].
  rewrite HP. cbn [f_index combine]. 
  assert (E : build_casc (np_percentile 50) perc true 9 avg (Some (seasons_arg None)) {| arrs := []; objs := [] |} [(0, NaN); (us_hour, Fin 0)] = Err IndexError).
  { unfold build_casc. cbn [seasons_arg one_season build_seasons]. unfold build_season.
    change (seasonal_subset [(0, NaN); (us_hour, Fin 0)] (Some [1; 2; 3; 4; 5; 6; 7; 8; 9; 10; 11; 12])) with (Ok [(0, NaN); (us_hour, Fin 0)]). cbn [bind].
    destruct (alloc_casc _ _) as [h o]. cbn [levels_loop]. unfold aggregate_precipitation. cbn [pair_sums values map snd].
    change (filter rain [(NaN + Fin 0)%num]) with (@nil xr). reflexivity. }
  rewrite E. eexists. split; [reflexivity|]. split; [reflexivity|].
  cbn [with_precip q_data]. change (values (fillna0 [(0, NaN); (us_hour, Fin 0)])) with [n0; Fin 0]. rewrite n0_xr. reflexivity.
Qed.
