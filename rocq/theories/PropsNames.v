(** Property C111: the names of the disaggregation methods. *)
From Coq Require Import String ZArith List Bool Lia Reals.
From Verif Require Import Py Num Cal Series UtilModel Frame PrecipModel TempModel HumModel UtilModel2 RadModel WindModel StationModel SpecBase SpecUtil SpecStation SpecRad
  DaysProofs PropsStation2 SpecNames.
Import ListNotations.
Open Scope string_scope.

(** a station with one day *)
Definition nm_daily : dframe xr := Build_dframe (daily_index 0 1)
  [("tmin", [Fin 270]); ("tmax", [Fin 290]); ("temp", [Fin 280]); ("precip", [NaN]); ("glob", [Fin 100]); ("ssd", [Fin 5]); ("hum", [Fin 80]); ("wind", [Fin 3]);
   ("hum_min", [Fin 30]); ("hum_max", [Fin 90])].
Definition nm_station : station :=
  {| s_lon := Some NaN; s_lat := Some NaN; s_tz := Some NaN; s_stats := O; s_daily := Some nm_daily; s_disagg := Some (empty_hourly (hours_index 0 1));
     s_sun := Some [(0%Z, {| sunrise := NaN; sunnoon := NaN; sunset := NaN; daylength := NaN |})] |}.
Definition nm_course : course xr := [(1%Z, map (fun h => (Z.of_nat h, NaN)) (seq 0 24))].
Definition nm_stats : sstats :=
  {| q_lon := None; q_lat := None; q_tz := None; q_data := None; q_wind_a := Some (Fin 1); q_wind_b := Some (Fin 1); q_wind_shift := Some (Fin 3);
     q_months := Some []; q_casc := Some []; q_a0 := Some (Fin 5); q_a1 := Some (Fin 1); q_kr := Some 6%Z; q_mhp := Some (map (fun h => ((1%Z, Z.of_nat h, false), NaN)) (seq 0 24));
     q_delta := None; q_tcourse := Some nm_course; q_glob := {| g_course := Some nm_course; g_angstroem := g_angstroem init_glob; g_bristcamp := g_bristcamp init_glob |} |}.

Definition ok (r : station * option exn) : Prop := snd r = None.
Lemma w_wind m : In m ["equal"; "cosine"; "random"] -> ok (st_wind modern nm_stats nm_station m (fun _ => NaN)).
Proof. intro H. repeat destruct H as [<-|H]; try destruct H; vm_compute; reflexivity. Qed.
Lemma w_hum m : In m ["equal"; "minimal"; "dewpoint_regression"; "min_max"; "linear_dewpoint_variation"; "month_hour_precip_mean"] -> ok (st_humidity modern nm_stats nm_station m false).
Proof. intro H. repeat destruct H as [<-|H]; try destruct H; vm_compute; reflexivity. Qed.
Lemma w_temp m : In m ["sine_min_max"; "sine_mean"; "sine"; "mean_course_min_max"; "mean_course_mean"] -> ok (st_temperature modern nm_stats nm_station m "fix" false).
Proof. intro H. repeat destruct H as [<-|H]; try destruct H; vm_compute; reflexivity. Qed.
Lemma w_glob m : In m ["pot_rad"; "pot_rad_via_ssd"; "pot_rad_via_bc"; "mean_course"] -> ok (st_radiation modern nm_stats nm_station m (Some (map (fun t => (t, Fin 50)) (hours_index 0 1)))).
Proof. intro H. repeat destruct H as [<-|H]; try destruct H; vm_compute; reflexivity. Qed.
Lemma w_precip m : In m ["equal"; "masterstation"] -> ok (st_precipitation legacy nm_stats nm_station m false 0 (Some (map (fun t => (t, PInf)) (hours_index 0 1))) (fun _ _ => NaN)).
Proof. intro H. repeat destruct H as [<-|H]; try destruct H; vm_compute; reflexivity. Qed.

Lemma found (m : string) l : ~ In m l -> existsb (String.eqb m) l = false.
Proof. intro N. apply not_true_is_false. intro H. apply existsb_exists in H as (x & I & E). apply String.eqb_eq in E. subst x. exact (N I). Qed.
Lemma differs (m x : string) l : ~ In m l -> In x l -> String.eqb m x = false.
Proof. intros N I. apply String.eqb_neq. intros ->. exact (N I). Qed.
Lemma put_keeps name s st x st' : put_series name s st = (st', Some x) -> st' = st.
Proof. unfold put_series. destruct (s_disagg st) as [d|]; [|congruence]. destruct (same_labels _ _); [discriminate|]. destruct (has_dup _); [congruence|discriminate]. Qed.


(** ** any other name is refused, whatever the station, and the station stays as it is *)
Theorem C111_refused e q st m : 
  (~ In m names_wind -> forall draw, exists x, st_wind e q st m draw = (st, Some x)) /\
  (~ In m names_hum -> forall keep, exists x, st_humidity e q st m keep = (st, Some x)) /\
  (~ In m names_temp -> forall t night, exists x, st_temperature e q st m t night = (st, Some x)) /\
  (~ In m names_precip -> forall u k master draws, exists x, st_precipitation e q st m u k master draws = (st, Some x)).
Proof.
  repeat split; intro N.
  - intro draw. unfold st_wind. destruct (daily_col st "wind") as [w|x]; cbn [bind]; [|eexists; reflexivity].
    unfold disaggregate_wind. pose proof (found m _ N) as F. unfold names_wind, names_hum in F. rewrite F. eexists; reflexivity.
  - intro keep. unfold st_humidity. destruct (daily_frame st) as [dd|x]; cbn [bind finish]; [|eexists; reflexivity].
    destruct (s_disagg st) as [d|]; [|eexists; reflexivity]. destruct (fcol "temp" d) as [t|x]; cbn [bind finish]; [|eexists; reflexivity].
    unfold disaggregate_humidity, disaggregate_humidity_gen. pose proof (found m _ N) as F. unfold names_wind, names_hum in F. rewrite F. eexists; reflexivity.
  - intros t night. unfold st_temperature. destruct (daily_frame_temp st _) as [dd|x]; cbn [bind finish]; [|eexists; reflexivity].
    unfold disaggregate_temperature. rewrite !(differs m _ _ N) by (cbn; tauto). eexists; reflexivity.
  - intros u k master draws. exists UnboundLocalError. apply C83_unknown_method. exact N.
Qed.
Print Assumptions C111_refused.

(** for radiation the sun times are computed first and stay behind; both frames are untouched *)
Theorem C111_radiation_refused e q st m pot : ~ In m names_glob ->
  exists x, snd (st_radiation e q st m pot) = Some x /\
    (fst (st_radiation e q st m pot) = st \/
     s_sun st = None /\ exists t, fst (st_radiation e q st m pot) = with_sun st (Some t)).
Proof.
  intro N. unfold st_radiation.
  assert (R : forall st1, exists x, finish "glob"
        (let* pot :=
           match pot with
           | Some p => Ok (Some p)
           | None =>
               if String.eqb m "mean_course" then Ok None else
               match s_disagg st1 with
               | None => Err AttributeError
               | Some d =>
                   match s_lon st1, s_lat st1, s_tz st1 with
                   | Some lon, Some lat, Some tz => Ok (Some (potential_radiation (f_index d) lon lat tz n0 n0 n0))
                   | _, _, _ => Err TypeError
                   end
               end
           end in
         let* dd := daily_frame st1 in
         disaggregate_radiation e dd (s_sun st1) pot m (glob_params (g_angstroem (q_glob q)))
           (glob_params (g_bristcamp (q_glob q))) (g_course (q_glob q))) st1 = (st1, Some x)).
  { intro st1. destruct (match pot with Some p => _ | None => _ end) as [p|x]; cbn [bind finish]; [|eexists; reflexivity].
    destruct (daily_frame st1) as [dd|x]; cbn [bind finish]; [|eexists; reflexivity].
    unfold disaggregate_radiation. rewrite !(differs m _ _ N) by (cbn; tauto). eexists; reflexivity. }
  destruct (s_sun st) as [t|] eqn:S.
  - destruct (R st) as (x & E). rewrite E. exists x. split; [reflexivity|]. left. reflexivity.
  - unfold calc_sun_times. destruct (s_daily st) as [df|] eqn:D; [|exists AttributeError; split; [reflexivity|left; reflexivity]].
    destruct (s_lon st) as [lon|] eqn:E1, (s_lat st) as [lat|] eqn:E2, (s_tz st) as [tz|] eqn:E3;
      try (exists TypeError; split; [reflexivity|left; reflexivity]).
    destruct (R (with_sun st (Some (get_sun_times (f_index df) lon lat tz)))) as (x & E). rewrite E. exists x. split; [reflexivity|]. right.
    split; [reflexivity|]. eexists; reflexivity.
Qed.
Print Assumptions C111_radiation_refused.
(** they do stay behind *)
Theorem C111_sun_times_stay e q st m pot lon lat tz dd : ~ In m names_glob -> s_sun st = None -> s_daily st = Some dd ->
  s_lon st = Some lon -> s_lat st = Some lat -> s_tz st = Some tz ->
  s_sun (fst (st_radiation e q st m pot)) = Some (get_sun_times (f_index dd) lon lat tz).
Proof.
  intros N S D E1 E2 E3. unfold st_radiation, calc_sun_times. rewrite S, D, E1, E2, E3.
  match goal with |- context [finish _ ?r ?s] => destruct r as [o|x] end; cbn [finish fst]; [|reflexivity].
  unfold put_series. cbn [with_sun s_disagg]. destruct (s_disagg st) as [d|]; [|reflexivity].
  destruct (same_labels _ _); [reflexivity|]. destruct (has_dup _); reflexivity.
Qed.
Print Assumptions C111_sun_times_stay.

(** ** and each name of the list is of use *)
Definition call_wind e q st m r := exists draw, st_wind e q st m draw = r.
Definition call_hum e q st m r := exists keep, st_humidity e q st m keep = r.
Definition call_temp e q st m r := exists t night, st_temperature e q st m t night = r.
Definition call_precip e q st m r := exists u k master draws, st_precipitation e q st m u k master draws = r.
Definition call_glob e q st m r := exists pot, st_radiation e q st m pot = r.
Lemma ok_pair r : ok r -> exists st', r = (st', None).
Proof. destruct r as [s o]. unfold ok. cbn. intros ->. eexists; reflexivity. Qed.
Theorem C111_names m :
  (of_use call_wind m <-> In m names_wind) /\ (of_use call_hum m <-> In m names_hum) /\ (of_use call_temp m <-> In m names_temp) /\
  (of_use call_precip m <-> In m names_precip) /\ (of_use call_glob m <-> In m names_glob).
Proof.
  assert (D : forall l, In m l \/ ~ In m l) by (intro l; destruct (in_dec string_dec m l); auto).
  repeat split.
  - intros (e & q & st & st' & draw & H). destruct (D names_wind) as [I|N]; [exact I|exfalso].
    destruct (proj1 (C111_refused e q st m) N draw) as (x & E). congruence.
  - intro I. destruct (ok_pair _ (w_wind m I)) as (st' & E). exists modern, nm_stats, nm_station, st', (fun _ => NaN). exact E.
  - intros (e & q & st & st' & keep & H). destruct (D names_hum) as [I|N]; [exact I|exfalso].
    destruct (proj1 (proj2 (C111_refused e q st m)) N keep) as (x & E). congruence.
  - intro I. destruct (ok_pair _ (w_hum m I)) as (st' & E). exists modern, nm_stats, nm_station, st', false. exact E.
  - intros (e & q & st & st' & t & night & H). destruct (D names_temp) as [I|N]; [exact I|exfalso].
    destruct (proj1 (proj2 (proj2 (C111_refused e q st m))) N t night) as (x & E). congruence.
  - intro I. destruct (ok_pair _ (w_temp m I)) as (st' & E). exists modern, nm_stats, nm_station, st', "fix", false. exact E.
  - intros (e & q & st & st' & u & k & master & draws & H). destruct (D names_precip) as [I|N]; [exact I|exfalso].
    destruct (proj2 (proj2 (proj2 (C111_refused e q st m))) N u k master draws) as (x & E). congruence.
  - intro I. destruct (string_dec m "cascade") as [->|NC].
    + destruct C81_met as (st' & E). eexists _, _, _, st'. do 4 eexists. exact E.
    + assert (I2 : In m ["equal"; "masterstation"]) by (cbn in I |- *; intuition congruence).
      destruct (ok_pair _ (w_precip m I2)) as (st' & E). eexists _, _, _, st'. do 4 eexists. exact E.
  - intros (e & q & st & st' & pot & H). destruct (D names_glob) as [I|N]; [exact I|exfalso].
    destruct (C111_radiation_refused e q st m pot N) as (x & E & _). rewrite H in E. discriminate E.
  - intro I. destruct (ok_pair _ (w_glob m I)) as (st' & E). eexists _, _, _, st', _. exact E.
Qed.
Print Assumptions C111_names.

(** ** the constants of the class Options: all of use for their variable but TEMP_LINEAR; EQUAL_DISTRIBUTION for three of the five variables *)
Theorem C111_options :
  (forall m, In m options_hum -> of_use call_hum m) /\ (forall m, In m options_wind -> of_use call_wind m) /\
  (forall m, In m options_precip -> of_use call_precip m) /\ (forall m, In m options_glob -> of_use call_glob m) /\
  (forall m, In m options_temp -> of_use call_temp m <-> m <> "linear") /\
  (of_use call_hum option_equal /\ of_use call_wind option_equal /\ of_use call_precip option_equal /\
   ~ of_use call_temp option_equal /\ ~ of_use call_glob option_equal).
Proof.
  assert (N : forall m, _) by exact C111_names.
  repeat split; try (intros m I; apply N; cbn in I |- *; tauto); try (apply N; cbn; tauto).
  - intro U. apply N in U. cbn in U. intuition congruence.
  - intro NL. apply N. cbn in H |- *. intuition congruence.
  - intro U. apply N in U. cbn in U. intuition discriminate.
  - intro U. apply N in U. cbn in U. intuition discriminate.
Qed.
Print Assumptions C111_options.

(** ** the hypotheses can be met: a name nobody knows, a station with a position *)
Example C111_met : ~ In "linear" names_temp /\ ~ In "equal" names_glob /\
  s_sun (fst (st_radiation modern nm_stats (with_sun nm_station None) "equal" None)) <> s_sun (with_sun nm_station None).
Proof.
  split; [cbn; intuition discriminate|]. assert (N : ~ In "equal" names_glob) by (cbn; intuition discriminate). split; [exact N|].
  rewrite (C111_sun_times_stay modern nm_stats (with_sun nm_station None) "equal" None NaN NaN NaN nm_daily N) by reflexivity. discriminate.
Qed.
