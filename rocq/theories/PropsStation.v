(** Properties C52-C56 and C80-C85: stations. *)
From Coq Require Import String ZArith List Bool Reals Sorted Lia Lra.
From Verif Require Import Py Num Cal Series Frame SpecBase TimeProofs IndexProofs DaysProofs InterpProofs TempProofs RadBC UtilModel CascadeModel PrecipModel SpecCascade PropsCascade PropsPrecip
  AggModel BuildProofs Trans UtilModel2 SpecUtil SpecRad RadProofs SunProofs TempModel RadModel HumModel HumProofs PropsHum WindModel StationModel SpecStation StationProofs StationDaily StationCascade.
Import ListNotations.
Open Scope Z_scope.

(** a day frame used in the examples: three days given, one missing *)
Definition ex_frame : pframe :=
  {| p_datetime := true; p_freq := false;
     p_data := Build_dframe [0; us_day; 3 * us_day] [("tmin"%string, [Fin 270; NaN; Fin 280]); ("precip"%string, [Fin 1; Fin 2; Fin 3])] |}.
Lemma ex_frame_ok : frame_ok ex_frame.
Proof. split; [intros c v [E|[E|[]]]; injection E as <- <-; reflexivity|discriminate]. Qed.
Definition ex_station : station :=
  {| s_lon := Some (Fin 10); s_lat := Some (Fin 47); s_tz := Some (Fin 1); s_stats := O; s_daily := None; s_disagg := None; s_sun := None |}.

(** ** C52 *)
Theorem C52_in_sync curve_fit minimize_bias fit_cosine linregress percentile e ops :
  (forall k, unshared (run curve_fit minimize_bias fit_cosine linregress percentile e (firstn k ops) empty_world)) ->
  let w := run curve_fit minimize_bias fit_cosine linregress percentile e ops empty_world in
  forall i st, nth_error (w_stations w) i = Some st -> in_sync w st.
Proof. intros H w. exact (run_synced _ _ _ _ _ e ops H). Qed.
Print Assumptions C52_in_sync.
(** a program with two stations and an exchange of statistics objects that meets the hypothesis *)
Example C52_met cf mb fc lr pc :
  let ops := [NewStation (Some (Fin 1)) (Some (Fin 2)) (Some (Fin 0)) None; NewStation None None None None;
              SetLon 1 (Some (Fin 5)); NewStats None None None; SetStats 1 (Some 2%nat); SetTz 1 (Some (Fin 3))] in
  (forall k, unshared (run cf mb fc lr pc modern (firstn k ops) empty_world)) /\
  length (w_stations (run cf mb fc lr pc modern ops empty_world)) = 2%nat.
Proof.
  cbv zeta. split; [|reflexivity]. intro k.
  assert (U : forall w, NoDup (map s_stats (w_stations w)) -> unshared w).
  { intros w ND i j a b Ha Hb E. apply (proj1 (NoDup_nth_error _) ND).
    - rewrite map_length. apply nth_error_Some. congruence.
    - rewrite (map_nth_error _ _ _ Ha), (map_nth_error _ _ _ Hb). congruence. }
  apply U. do 7 (destruct k as [|k]; [cbn; repeat constructor; cbn; intuition congruence|]).
  cbn. repeat constructor; cbn; intuition congruence.
Qed.
(** sharing: assigning the statistics of station i to station j overwrites the location *)
Theorem C52_shared_overwritten cf mb fc lr pc e w i j a b :
  nth_error (w_stations w) i = Some a -> nth_error (w_stations w) j = Some b -> i <> j ->
  (s_stats a < length (w_stats w))%nat ->
  let w' := fst (step cf mb fc lr pc e w (SetStats j (Some (s_stats a)))) in
  nth_error (w_stations w') i = Some a /\
  (in_sync w' a <-> s_lon a = s_lon b /\ s_lat a = s_lat b /\ s_tz a = s_tz b).
Proof.
  intros Ha Hb N L w'. unfold w', step. apply Nat.ltb_lt in L as L'. rewrite L'. cbn [fst]. unfold set_stats. rewrite Hb.
  cbn [upd_station upd_stats w_stations w_stats]. split; [rewrite nth_upd_other by congruence; exact Ha|].
  unfold in_sync. cbn [upd_station upd_stats w_stations w_stats]. rewrite nth_upd_same by exact L. split.
  - intros (q & E & A & B & C). injection E as <-. cbn [locate_stats q_lon q_lat q_tz] in *. repeat split; congruence.
  - intros (A & B & C). eexists. split; [reflexivity|]. cbn [locate_stats q_lon q_lat q_tz]. repeat split; congruence.
Qed.
Print Assumptions C52_shared_overwritten.
Theorem C52_sharing_refuted cf mb fc lr pc : exists ops, let w := run cf mb fc lr pc modern ops empty_world in
  exists st, nth_error (w_stations w) 0 = Some st /\ ~ in_sync w st.
Proof.
  exists [NewStation (Some (Fin 1)) None None None; NewStation (Some (Fin 2)) None None None; SetStats 1 (Some O)].
  eexists. split; [reflexivity|]. intros (q & E & A & _). cbn in E. injection E as <-. cbn in A. injection A as A. lra.
Qed.
Print Assumptions C52_sharing_refuted.

(** ** C53 *)
Theorem C53_gap_free e st f st' : frame_ok f -> (p_freq f = false \/ has_index_to_datetime e = false) ->
  set_daily e st (VFrame f) = (st', None) ->
  exists d0 n df, n <> O /\ s_daily st' = Some df /\ f_index df = daily_index d0 n /\
    hd 0 (f_index (p_data f)) = d0 * us_day /\ last (f_index (p_data f)) 0 = (d0 + Z.of_nat n - 1) * us_day /\
    map fst (f_cols df) = map fst (f_cols (p_data f)) /\
    (forall c v, assoc c (f_cols (p_data f)) = Some v ->
       assoc c (f_cols df) = Some (map (fun t => row_value t (f_index (p_data f)) v) (daily_index d0 n))) /\
    s_disagg st' = Some (Build_dframe (hours_index d0 n) (map (fun c => (c, repeat NaN (24 * n))) hourly_names)) /\
    (s_tz st = None -> s_sun st' = s_sun st) /\
    (forall tz, s_tz st = Some tz -> exists lon lat, s_lon st = Some lon /\ s_lat st = Some lat /\
       s_sun st' = Some (get_sun_times (daily_index d0 n) lon lat tz)).
Proof. exact (set_daily_success e st f st'). Qed.
Print Assumptions C53_gap_free.
(** every frame that is not refused is accepted, if its index has no frequency or is gap-free *)
Lemma not_refused f : frame_ok f -> ~ refused (VFrame f) ->
  p_datetime f = true /\ day_resolution (f_index (p_data f)) = true /\ is_increasing (f_index (p_data f)) = true.
Proof.
  intros FO NR. split; [|split].
  - destruct (p_datetime f) eqn:E; [reflexivity|]. exfalso. apply NR, RIndex, E.
  - destruct (day_resolution _) eqn:E; [reflexivity|]. exfalso. unfold day_resolution in E.
    assert (exists t, In t (f_index (p_data f)) /\ t mod us_day <> 0) as (t & I & M).
    { clear - E. induction (f_index (p_data f)) as [|x l IH]; [discriminate|]. cbn in E. apply andb_false_iff in E as [E|E].
      - exists x. split; [left; reflexivity|apply Z.eqb_neq, E].
      - destruct (IH E) as (t & I & M). exists t. split; [right; exact I|exact M]. }
    exact (NR (RResolution f t I M)).
  - destruct (is_increasing _) eqn:E; [reflexivity|]. exfalso.
    assert (exists i a b, nth_error (f_index (p_data f)) i = Some a /\ nth_error (f_index (p_data f)) (S i) = Some b /\ b < a) as (i & a & b & A & B & L).
    { clear - E. induction (f_index (p_data f)) as [|x [|y l] IH]; [discriminate|discriminate|]. cbn [is_increasing] in E. apply andb_false_iff in E as [E|E].
      - exists O, x, y. apply Z.leb_gt in E. repeat split; assumption.
      - destruct (IH E) as (i & a & b & A & B & L). exists (S i), a, b. repeat split; assumption. }
    exact (NR (ROrder f i a b A B L)).
Qed.
Lemma not_cold f df c : frame_ok f -> ~ refused (VFrame f) -> fill_days f = Ok df -> In c ["tmin"; "tmax"; "tmean"]%string -> too_cold df c = false.
Proof.
  intros FO NR F I. destruct (not_refused f FO NR) as (P & R & IC). apply not_true_iff_false. intro T. unfold too_cold in T.
  destruct (assoc c (f_cols df)) as [v|] eqn:A; [|discriminate]. apply existsb_exists in T as (x & Hx & C). apply cold_ltb in C.
  destruct (p_freq f) eqn:PF.
  - assert (df = p_data f) by (unfold fill_days in F; rewrite PF in F; congruence). subst df. exact (NR (RCold f c v x I A Hx C)).
  - pose proof (fill_none f PF R IC) as X. rewrite F in X. destruct X as [(d0 & n & _ & _ & _ & _ & A4 & A5) _].
    destruct (assoc c (f_cols (p_data f))) as [w|] eqn:AW.
    + rewrite (A5 c w AW) in A. injection A as <-. apply in_map_iff in Hx as (t & E & _). refine (NR (RCold f c w x I AW _ C)).
      clear - E C. revert w E. induction (f_index (p_data f)) as [|u l IH]; intros [|y w] E; cbn in E; try (subst x; destruct C).
      destruct (u =? t); [left; exact E|right; apply IH, E].
    + exfalso. assert (G : forall l, assoc c l = Some v -> In c (map fst l)) by (intros l H; apply assoc_in in H; apply (in_map fst) in H; exact H).
      apply G in A. rewrite A4 in A. clear - A AW. induction (f_cols (p_data f)) as [|[k w] l IH]; [destruct A|]. cbn in A, AW.
      destruct (String.eqb_spec k c); [discriminate|]. destruct A as [A|A]; [contradiction|auto].
Qed.
Theorem C53_accepted e st f : frame_ok f -> ~ refused (VFrame f) ->
  (p_freq f = true -> exists d0 n, n <> O /\ f_index (p_data f) = daily_index d0 n) ->
  (s_tz st <> None -> s_lon st <> None /\ s_lat st <> None) ->
  snd (set_daily e st (VFrame f)) = None.
Proof.
  intros FO NR FR LOC. destruct (not_refused f FO NR) as (P & R & IC). unfold set_daily. rewrite P, R, IC. cbn [negb].
  destruct (fill_days f) as [df|x] eqn:F.
  2:{ exfalso. destruct (p_freq f) eqn:PF; [unfold fill_days in F; rewrite PF in F; discriminate|].
      pose proof (fill_none f PF R IC) as X. rewrite F in X. destruct X as [X|X]; [exact (NR (REmpty f PF X))|exact (NR (RDuplicates f PF X))]. }
  assert (NC : existsb (too_cold df) ["tmin"; "tmax"; "tmean"]%string = false).
  { apply not_true_iff_false. intro T. apply existsb_exists in T as (c & I & T). rewrite (not_cold f df c FO NR F I) in T. discriminate. }
  rewrite NC.
  assert (exists d0 n, n <> O /\ f_index df = daily_index d0 n) as (d0 & n & N0 & FI).
  { destruct (p_freq f) eqn:PF.
    - assert (df = p_data f) by (unfold fill_days in F; rewrite PF in F; congruence). subst df. apply FR. reflexivity.
    - pose proof (fill_none f PF R IC) as X. rewrite F in X. destruct X as [(d0 & n & A & B & _) _]. eauto. }
  rewrite FI, hourly_index_contiguous by exact N0. cbn [with_disagg with_daily s_tz]. destruct (s_tz st) as [tz|] eqn:TZ; [|reflexivity].
  destruct LOC as [LO LA]; [discriminate|]. unfold calc_sun_times. cbn [with_disagg with_daily s_daily s_lon s_lat s_tz]. rewrite TZ.
  destruct (s_lon st); [|congruence]. destruct (s_lat st); [|congruence]. reflexivity.
Qed.
Print Assumptions C53_accepted.
Example C53_met : frame_ok ex_frame /\ ~ refused (VFrame ex_frame) /\ snd (set_daily modern ex_station (VFrame ex_frame)) = None.
Proof.
  assert (NR : ~ refused (VFrame ex_frame)).
  { intro H. inversion H as [|f0 PD|f0 t IN MD|f0 i a b NA NB LT|f0 PF DUP|f0 PF NIL|f0 c v x INC AS INX CO]; subst.
    - discriminate.
    - cbn in IN. apply MD. destruct IN as [<-|[<-|[<-|[]]]]; reflexivity.
    - destruct i as [|[|[|i]]]; cbn in NA, NB; try discriminate; injection NA as <-; injection NB as <-; unfold us_day in LT; lia.
    - apply DUP. cbn. repeat constructor; cbn; unfold us_day; intuition lia.
    - discriminate.
    - cbn in INC. destruct INC as [<-|[<-|[<-|[]]]]; cbn in AS; try discriminate. injection AS as <-.
      destruct INX as [<-|[<-|[<-|[]]]]; cbn in CO; try lra; destruct CO. }
  split; [exact ex_frame_ok|]. split; [exact NR|]. apply C53_accepted; [exact ex_frame_ok|exact NR|discriminate|].
  intros _. split; discriminate.
Qed.

(** ** C54 *)
Theorem C54_refused_unchanged e st v : match v with VFrame f => frame_ok f | VOther => True end -> refused v ->
  fst (set_daily e st v) = st /\ snd (set_daily e st v) <> None.
Proof. exact (refused_unchanged e st v). Qed.
Print Assumptions C54_refused_unchanged.
Example C54_met : refused (VFrame {| p_datetime := true; p_freq := false; p_data := Build_dframe [0; us_day] [("tmax"%string, [Fin 20; Fin 290])] |}).
Proof. eapply RCold with (c := "tmax"%string) (x := Fin 20); [right; left; reflexivity|reflexivity|left; reflexivity|cbn; lra]. Qed.
(** several days per step: the daily data are replaced, then the call fails *)
Theorem C54_stepped_frequency e st f a g b : frame_ok f -> ~ refused (VFrame f) -> p_freq f = true -> has_index_to_datetime e = false ->
  In (a * us_day) (f_index (p_data f)) -> In (b * us_day) (f_index (p_data f)) -> ~ In (g * us_day) (f_index (p_data f)) -> a < g < b ->
  exists st', set_daily e st (VFrame f) = (st', Some AttributeError) /\
    s_daily st' = Some (p_data f) /\ s_disagg st' = s_disagg st /\ s_sun st' = s_sun st.
Proof.
  intros FO NR PF T Ha Hb Hg G. destruct (not_refused f FO NR) as (P & R & IC). unfold set_daily. rewrite P, R, IC. cbn [negb].
  assert (F : fill_days f = Ok (p_data f)) by (unfold fill_days; rewrite PF; reflexivity). rewrite F.
  assert (NC : existsb (too_cold (p_data f)) ["tmin"; "tmax"; "tmean"]%string = false).
  { apply not_true_iff_false. intro TC. apply existsb_exists in TC as (c & I & TC). rewrite (not_cold f (p_data f) c FO NR F I) in TC. discriminate. }
  rewrite NC. assert (SS : StronglySorted Z.lt (f_index (p_data f))) by (apply (proj2 FO); assumption).
  assert (HI : hourly_index e (f_index (p_data f)) = Err AttributeError).
  { rewrite <- (resolution_midnight _ R). rewrite (hourly_index_gaps e _ g).
    - rewrite T. reflexivity.
    - apply sorted_dates; assumption.
    - intro H. apply Hg. rewrite <- (resolution_midnight _ R). apply in_map_iff. exists g. split; [reflexivity|exact H].
    - exists a, b. split; [|split; [|exact G]].
      + rewrite <- (day_start_date a). apply in_map, Ha.
      + rewrite <- (day_start_date b). apply in_map, Hb. }
  rewrite HI. eexists. split; [reflexivity|]. repeat split.
Qed.
Print Assumptions C54_stepped_frequency.
Example C54_stepped_met : let f := {| p_datetime := true; p_freq := true; p_data := Build_dframe [0; 2 * us_day] [("precip"%string, [Fin 1; Fin 2])] |} in
  frame_ok f /\ ~ refused (VFrame f).
Proof.
  cbv zeta. split.
  - split; [intros c v [E|[]]; injection E as <- <-; reflexivity|]. intros _ _. cbn. repeat constructor.
  - intro H. inversion H as [|f0 PD|f0 t IN MD|f0 i a b NA NB LT|f0 PF DUP|f0 PF NIL|f0 c v x INC AS INX CO]; subst; try discriminate.
    + cbn in IN. apply MD. destruct IN as [<-|[<-|[]]]; reflexivity.
    + destruct i as [|[|i]]; cbn in NA, NB; try discriminate. injection NA as <-; injection NB as <-. unfold us_day in LT. lia.
    + cbn in INC. destruct INC as [<-|[<-|[<-|[]]]]; discriminate.
Qed.
(** a time zone without coordinates: both frames are replaced, then the call fails *)
Theorem C54_no_coordinates e st f tz : frame_ok f -> ~ refused (VFrame f) -> p_freq f = false ->
  s_tz st = Some tz -> (s_lon st = None \/ s_lat st = None) ->
  exists st' d0 n df, set_daily e st (VFrame f) = (st', Some TypeError) /\
    s_daily st' = Some df /\ f_index df = daily_index d0 n /\ map fst (f_cols df) = map fst (f_cols (p_data f)) /\
    hd 0 (f_index (p_data f)) = d0 * us_day /\ last (f_index (p_data f)) 0 = (d0 + Z.of_nat n - 1) * us_day /\
    s_disagg st' = Some (Build_dframe (hours_index d0 n) (map (fun c => (c, repeat NaN (24 * n))) hourly_names)) /\
    s_sun st' = s_sun st.
Proof.
  intros FO NR PF TZ LOC.
  assert (A : snd (set_daily e (Build_station None None None (s_stats st) (s_daily st) (s_disagg st) (s_sun st)) (VFrame f)) = None).
  { apply C53_accepted; [exact FO|exact NR|congruence|intro H; cbn in H; congruence]. }
  destruct (set_daily e (Build_station None None None _ _ _ _) (VFrame f)) as [st0 o] eqn:E0. cbn [snd] in A. subst o.
  destruct (C53_gap_free _ _ _ _ FO (or_introl PF) E0) as (d0 & n & df & N0 & D1 & D2 & D3 & D4 & D5 & _ & D6 & D7 & _).
  destruct (not_refused f FO NR) as (P & R & IC). unfold set_daily in *. rewrite P, R, IC in *. cbn [negb] in *.
  destruct (fill_days f) as [df0|x]; [|discriminate]. destruct (existsb _ _); [discriminate|].
  destruct (hourly_index e (f_index df0)) as [h|x]; [|discriminate]. cbn [with_disagg with_daily s_tz] in *. rewrite TZ.
  injection E0 as <-. destruct st as [lon lat tz0 r dl dg su]. cbn [s_lon s_lat s_tz s_stats s_daily s_disagg s_sun with_daily with_disagg] in *.
  exists (Build_station lon lat tz0 r (Some df0) (Some (empty_hourly h)) su), d0, n, df. split.
  { unfold calc_sun_times. cbn [s_daily s_lon s_lat s_tz]. destruct LOC as [->| ->]; [reflexivity|]. destruct lon; reflexivity. }
  cbn [s_daily s_disagg s_sun]. repeat apply conj; try assumption. reflexivity.
Qed.
Print Assumptions C54_no_coordinates.

(** ** C55 *)
(** the column that a method writes; [None]: not one of the five methods *)
Definition own_column (o : data_op) : option string :=
  match o with
  | DWind _ _ => Some "wind" | DHum _ _ => Some "hum" | DTemp _ _ _ => Some "temp"
  | DPrecip _ _ _ _ _ => Some "precip" | DRad _ _ => Some "glob" | _ => None
  end%string.
Theorem C55_own_column e q st o name : own_column o = Some name ->
  let st' := fst (run_data e q st o) in let err := snd (run_data e q st o) in
  (* the station itself *)
  s_lon st' = s_lon st /\ s_lat st' = s_lat st /\ s_tz st' = s_tz st /\ s_stats st' = s_stats st /\ s_daily st' = s_daily st /\
  (* sun times are only filled in by the radiation method *)
  (s_sun st' <> s_sun st -> name = "glob"%string /\ s_sun st = None) /\
  (* hourly data *)
  (err <> None -> s_disagg st' = s_disagg st) /\
  (err = None -> exists d d', s_disagg st = Some d /\ s_disagg st' = Some d' /\ f_index d' = f_index d /\
     map fst (f_cols d') = map fst (f_cols d) /\ forall c, c <> name -> assoc c (f_cols d') = assoc c (f_cols d)).
Proof.
  intro O.
  assert (G : forall st0 (r : station * option exn), same_base st0 st -> s_daily st0 = s_daily st -> s_disagg st0 = s_disagg st ->
     (s_sun st0 <> s_sun st -> name = "glob"%string /\ s_sun st = None) ->
     ((snd r <> None /\ fst r = st0) \/ (snd r = None /\ only_column name (fst r) st0)) ->
     s_lon (fst r) = s_lon st /\ s_lat (fst r) = s_lat st /\ s_tz (fst r) = s_tz st /\ s_stats (fst r) = s_stats st /\ s_daily (fst r) = s_daily st /\
     (s_sun (fst r) <> s_sun st -> name = "glob"%string /\ s_sun st = None) /\
     (snd r <> None -> s_disagg (fst r) = s_disagg st) /\
     (snd r = None -> exists d d', s_disagg st = Some d /\ s_disagg (fst r) = Some d' /\ f_index d' = f_index d /\
       map fst (f_cols d') = map fst (f_cols d) /\ forall c, c <> name -> assoc c (f_cols d') = assoc c (f_cols d))).
  { intros st0 r (B1 & B2 & B3 & B4) D1 D2 SU [[E ->]|[E (S1 & S2 & S3 & d & d' & H1 & H2 & H3 & H4 & H5)]].
    - repeat apply conj; try assumption; try (intro; assumption). intro; contradiction.
    - destruct S1 as (C1 & C2 & C3 & C4). repeat apply conj; try congruence.
      + intro H. apply SU. congruence.
      + intros _. exists d, d'. repeat apply conj; try assumption. congruence. }
  assert (R : same_base st st) by (repeat split).
  assert (SK : s_sun st <> s_sun st -> name = "glob"%string /\ s_sun st = None) by (intro H; contradiction).
  destruct o as [v| |m d|m k|m t n|m u s ms d|m p]; cbn [own_column] in O; try discriminate; injection O as <-; cbn [run_data]; cbv zeta.
  - apply (G st); try assumption; try reflexivity. apply wind_cases.
  - apply (G st); try assumption; try reflexivity. apply finish_cases.
  - apply (G st); try assumption; try reflexivity. apply finish_cases.
  - apply (G st); try assumption; try reflexivity. apply finish_cases.
  - destruct (radiation_cases e q st m p) as (A & B & C & D). apply (G (match s_sun st with None => fst (calc_sun_times st) | Some _ => st end)); try assumption.
    destruct (s_sun st) eqn:E; intro H; [congruence|]. split; reflexivity.
Qed.
Print Assumptions C55_own_column.
(** other objects are untouched *)
Theorem C55_other_objects cf mb fc lr pc e w i o : let w' := fst (step cf mb fc lr pc e w (OnData i o)) in
  w_stats w' = w_stats w /\ length (w_stations w') = length (w_stations w) /\
  forall j, j <> i -> nth_error (w_stations w') j = nth_error (w_stations w) j.
Proof.
  cbv zeta. unfold step. destruct (nth_error (w_stations w) i) as [st|] eqn:E; [|repeat split; intros; reflexivity].
  destruct (run_data e (stats_of w (s_stats st)) st o) as [st' err]. cbn [fst upd_station w_stats w_stations].
  split; [reflexivity|]. split; [apply upd_length|]. intros j N. apply nth_upd_other. congruence.
Qed.
Print Assumptions C55_other_objects.
(** computing statistics touches one statistics object and no station *)
Theorem C55_statistics cf mb fc lr pc e w r o : let w' := fst (step cf mb fc lr pc e w (OnStats r o)) in
  w_stations w' = w_stations w /\ length (w_stats w') = length (w_stats w) /\
  (forall j, j <> r -> nth_error (w_stats w') j = nth_error (w_stats w) j) /\
  (forall q q', nth_error (w_stats w) r = Some q -> nth_error (w_stats w') r = Some q' ->
     q_lon q' = q_lon q /\ q_lat q' = q_lat q /\ q_tz q' = q_tz q).
Proof.
  cbv zeta. unfold step. destruct (nth_error (w_stats w) r) as [q|] eqn:E; [|repeat apply conj; try reflexivity; discriminate].
  pose proof (run_stat_place cf mb fc lr pc e q o) as (P1 & P2 & P3).
  destruct (run_stat cf mb fc lr pc e q o) as [q' err]. cbn [fst upd_stats w_stats w_stations] in *.
  split; [reflexivity|]. split; [apply upd_length|]. split; [intros j N; apply nth_upd_other; congruence|].
  intros q1 q2 E1 E2. rewrite nth_upd_same in E2 by (apply nth_error_Some; congruence). injection E1 as <-. injection E2 as <-. repeat split; assumption.
Qed.
Print Assumptions C55_statistics.

(** ** C56 *)
Definition sun_of (w : world) (i : nat) : option (list (Z * sun_row)) :=
  match nth_error (w_stations w) i with Some st => s_sun st | None => None end.
(** only three calls on the station itself can change its sun times *)
Theorem C56_only_changed_by cf mb fc lr pc e w i o : (i < length (w_stations w))%nat ->
  sun_of (fst (step cf mb fc lr pc e w o)) i <> sun_of w i ->
  (exists v, o = OnData i (DDaily v)) \/ o = OnData i DSun \/ (exists m p, o = OnData i (DRad m p) /\ sun_of w i = None).
Proof.
  intros Hi H. unfold sun_of in *.
  assert (U : forall k st0 st1 w0, nth_error (w_stations w) k = Some st0 -> s_sun st1 = s_sun st0 -> w_stations w0 = upd k st1 (w_stations w) ->
     match nth_error (w_stations w0) i with Some st => s_sun st | None => None end = match nth_error (w_stations w) i with Some st => s_sun st | None => None end).
  { intros k st0 st1 w0 Hk SU W. rewrite W, nth_upd. destruct (Nat.eqb_spec k i) as [<-|N]; [rewrite Hk; exact SU|reflexivity]. }
  destruct o as [lon lat tz|lon lat tz d|k v|k v|k v|k [r|]|r o|k o]; cbn [step fst] in H.
  - contradiction.
  - exfalso. apply H. unfold new_station.
    set (w1 := {| w_stats := w_stats w ++ [new_stats lon lat None]; w_stations := w_stations w ++ [_] |}). set (n := length (w_stations w)).
    assert (K1 : forall w0 v, nth_error (w_stations (set_lon w0 n v)) i = nth_error (w_stations w0) i) by (intros w0 v; unfold set_lon; destruct (nth_error (w_stations w0) n); [apply nth_upd_other; unfold n; lia|reflexivity]).
    assert (K2 : forall w0 v, nth_error (w_stations (set_lat w0 n v)) i = nth_error (w_stations w0) i) by (intros w0 v; unfold set_lat; destruct (nth_error (w_stations w0) n); [apply nth_upd_other; unfold n; lia|reflexivity]).
    assert (K3 : forall w0 v, nth_error (w_stations (set_tz w0 n v)) i = nth_error (w_stations w0) i) by (intros w0 v; unfold set_tz; destruct (nth_error (w_stations w0) n); [apply nth_upd_other; unfold n; lia|reflexivity]).
    assert (K4 : forall w0 v, nth_error (w_stations (set_stats w0 n v)) i = nth_error (w_stations w0) i) by (intros w0 v; unfold set_stats; destruct (nth_error (w_stations w0) n); [apply nth_upd_other; unfold n; lia|reflexivity]).
    set (w2 := set_tz _ _ _). assert (W2 : nth_error (w_stations w2) i = nth_error (w_stations w) i) by (unfold w2; rewrite K3, K2, K1, K4; apply nth_error_app1, Hi).
    destruct d as [v|]; [|cbn [fst]; rewrite W2; reflexivity]. destruct (nth_error (w_stations w2) n) as [st|]; [|cbn [fst]; rewrite W2; reflexivity].
    destruct (set_daily e st v) as [st' [x|]]; cbn [fst]; [reflexivity|]. cbn [upd_station w_stations]. rewrite nth_upd_other by (unfold n; lia). rewrite W2. reflexivity.
  - exfalso. apply H. unfold set_lon. destruct (nth_error (w_stations w) k) eqn:E; [|reflexivity]. eapply U; [exact E| |reflexivity]. reflexivity.
  - exfalso. apply H. unfold set_lat. destruct (nth_error (w_stations w) k) eqn:E; [|reflexivity]. eapply U; [exact E| |reflexivity]. reflexivity.
  - exfalso. apply H. unfold set_tz. destruct (nth_error (w_stations w) k) eqn:E; [|reflexivity]. eapply U; [exact E| |reflexivity]. reflexivity.
  - exfalso. apply H. destruct (Nat.ltb r (length (w_stats w))); [|reflexivity]. cbn [fst]. unfold set_stats. destruct (nth_error (w_stations w) k) eqn:E; [|reflexivity]. eapply U; [exact E| |reflexivity]. reflexivity.
  - contradiction.
  - exfalso. apply H. destruct (nth_error (w_stats w) r) as [q|]; [|reflexivity]. destruct (run_stat cf mb fc lr pc e q o) as [q' x]. reflexivity.
  - destruct (nth_error (w_stations w) k) as [st|] eqn:E; [|contradiction].
    destruct (own_column o) as [name|] eqn:O.
    + pose proof (C55_own_column e (stats_of w (s_stats st)) st o name O) as (_ & _ & _ & _ & _ & SU & _).
      destruct (run_data e (stats_of w (s_stats st)) st o) as [st' x]. cbn [fst upd_station w_stations] in *.
      rewrite nth_upd in H. destruct (Nat.eqb_spec k i) as [<-|N]; [|contradiction]. rewrite E in H. destruct (SU H) as [NM NS].
      right. right. destruct o; cbn [own_column] in O; try discriminate; try (injection O as <-; discriminate). rewrite E. eauto.
    + destruct (run_data e (stats_of w (s_stats st)) st o) as [st' x]. cbn [fst upd_station w_stations] in *.
      rewrite nth_upd in H. destruct (Nat.eqb_spec k i) as [<-|N]; [|contradiction].
      destruct o; cbn [own_column] in O; try discriminate; [left; eauto|right; left; reflexivity].
Qed.
Print Assumptions C56_only_changed_by.
(** changing the longitude leaves the old sun times in place, and they are wrong for the new place *)
Theorem C56_stale cf mb fc lr pc e w i st d0 n lon lat tz lon' : nth_error (w_stations w) i = Some st -> n <> O ->
  s_lon st = Some (Fin lon) -> s_lat st = Some (Fin lat) -> s_tz st = Some (Fin tz) ->
  s_sun st = Some (get_sun_times (daily_index d0 n) (Fin lon) (Fin lat) (Fin tz)) -> lon' <> lon ->
  exists st', nth_error (w_stations (fst (step cf mb fc lr pc e w (SetLon i (Some (Fin lon')))))) i = Some st' /\
    s_lon st' = Some (Fin lon') /\ s_lat st' = Some (Fin lat) /\ s_tz st' = Some (Fin tz) /\ s_sun st' = s_sun st /\
    s_sun st' <> Some (get_sun_times (daily_index d0 n) (Fin lon') (Fin lat) (Fin tz)).
Proof.
  intros E N0 L1 L2 L3 SU NE. cbn [step fst]. unfold set_lon. rewrite E. cbn [upd_stats upd_station w_stations]. rewrite nth_upd_same by (apply nth_error_Some; congruence).
  eexists. split; [reflexivity|]. cbn [locate_station s_lon s_lat s_tz s_sun]. repeat apply conj; try assumption; try reflexivity. rewrite SU.
  intro H. injection H as H. destruct n as [|n]; [congruence|]. rewrite daily_index_S in H. unfold get_sun_times in H. cbn [map] in H.
  apply (f_equal (fun l => match l with [] => NaN | p :: _ => sunnoon (snd p) end)) in H. cbv beta iota in H. cbn [snd] in H.
  rewrite !sun_times1_ok in H. cbn [sunnoon] in H. injection H as H. unfold noon_R in H. apply NE. lra.
Qed.
Print Assumptions C56_stale.
Theorem C56_stale_timezone cf mb fc lr pc e w i st d0 n lon lat tz tz' : nth_error (w_stations w) i = Some st -> n <> O ->
  s_lon st = Some (Fin lon) -> s_lat st = Some (Fin lat) -> s_tz st = Some (Fin tz) ->
  s_sun st = Some (get_sun_times (daily_index d0 n) (Fin lon) (Fin lat) (Fin tz)) -> tz' <> tz ->
  exists st', nth_error (w_stations (fst (step cf mb fc lr pc e w (SetTz i (Some (Fin tz')))))) i = Some st' /\
    s_lon st' = Some (Fin lon) /\ s_lat st' = Some (Fin lat) /\ s_tz st' = Some (Fin tz') /\ s_sun st' = s_sun st /\
    s_sun st' <> Some (get_sun_times (daily_index d0 n) (Fin lon) (Fin lat) (Fin tz')).
Proof.
  intros E N0 L1 L2 L3 SU NE. cbn [step fst]. unfold set_tz. rewrite E. cbn [upd_stats upd_station w_stations]. rewrite nth_upd_same by (apply nth_error_Some; congruence).
  eexists. split; [reflexivity|]. cbn [locate_station s_lon s_lat s_tz s_sun]. repeat apply conj; try assumption; try reflexivity. rewrite SU.
  intro H. injection H as H. destruct n as [|n]; [congruence|]. rewrite daily_index_S in H. unfold get_sun_times in H. cbn [map] in H.
  apply (f_equal (fun l => match l with [] => NaN | p :: _ => sunnoon (snd p) end)) in H. cbv beta iota in H. cbn [snd] in H.
  rewrite !sun_times1_ok in H. cbn [sunnoon] in H. injection H as H. unfold noon_R in H. apply NE. lra.
Qed.
Print Assumptions C56_stale_timezone.
Example C56_met : exists st, set_daily modern ex_station (VFrame ex_frame) = (st, None) /\
  s_sun st = Some (get_sun_times (daily_index 0 4) (Fin 10) (Fin 47) (Fin 1)).
Proof.
  destruct C53_met as (FO & _ & E). destruct (set_daily modern ex_station (VFrame ex_frame)) as [st o] eqn:H. cbn [snd] in E. subst o. exists st. split; [reflexivity|].
  destruct (C53_gap_free _ _ _ _ FO (or_introl eq_refl) H) as (d0 & n & df & N0 & _ & _ & A & B & _ & _ & _ & _ & C).
  destruct (C (Fin 1) eq_refl) as (lon & lat & L1 & L2 & S). injection L1 as <-. injection L2 as <-. rewrite S.
  change (0 = d0 * us_day) in A. change (3 * us_day = (d0 + Z.of_nat n - 1) * us_day) in B. assert (d0 = 0) by (unfold us_day in A; lia). subst d0.
  assert (n = 4%nat) by (unfold us_day in B; lia). subst n. reflexivity.
Qed.
