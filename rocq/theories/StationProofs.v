(** Proofs about the station model. *)
From Coq Require Import String ZArith List Bool Reals Sorted Lia Lra.
From Verif Require Import Py Num Cal Series Frame SpecBase TimeProofs IndexProofs DaysProofs InterpProofs TempProofs RadBC UtilModel AggModel BuildProofs Trans UtilModel2
  SpecUtil SunProofs TempModel RadModel HumModel WindModel StationModel SpecStation.
Import ListNotations.
Open Scope Z_scope.

Lemma nth_upd_same {A} i (x : A) l : (i < length l)%nat -> nth_error (upd i x l) i = Some x.
Proof. revert i. induction l as [|a l IH]; intros [|i] H; cbn in *; try lia; auto. apply IH. lia. Qed.
Lemma nth_upd_other {A} i j (x : A) l : i <> j -> nth_error (upd i x l) j = nth_error l j.
Proof. revert i j. induction l as [|a l IH]; intros [|i] [|j] H; cbn; auto; try congruence. Qed.
Lemma nth_upd {A} i j (x : A) l : nth_error (upd i x l) j = if Nat.eqb i j then match nth_error l j with Some _ => Some x | None => None end else nth_error l j.
Proof.
  destruct (Nat.eqb_spec i j) as [<-|NE]; [|apply nth_upd_other, NE].
  destruct (nth_error l i) eqn:E.
  - apply nth_upd_same. apply nth_error_Some. congruence.
  - apply nth_error_None. rewrite upd_length. apply nth_error_None, E.
Qed.

(** ** what the calls leave alone *)
(** everything but the daily data, the hourly data and the sun times *)
Definition same_base (a b : station) : Prop :=
  s_lon a = s_lon b /\ s_lat a = s_lat b /\ s_tz a = s_tz b /\ s_stats a = s_stats b.
Lemma calc_sun_base st : same_base (fst (calc_sun_times st)) st.
Proof. unfold calc_sun_times. destruct (s_daily st), (s_lon st) eqn:?, (s_lat st) eqn:?, (s_tz st) eqn:?; cbn; repeat split; congruence. Qed.
Lemma calc_sun_data st : s_daily (fst (calc_sun_times st)) = s_daily st /\ s_disagg (fst (calc_sun_times st)) = s_disagg st.
Proof. unfold calc_sun_times. destruct (s_daily st) eqn:?, (s_lon st) eqn:?, (s_lat st) eqn:?, (s_tz st) eqn:?; cbn; split; congruence. Qed.
Lemma calc_sun_err st x : snd (calc_sun_times st) = Some x -> fst (calc_sun_times st) = st.
Proof. unfold calc_sun_times. destruct (s_daily st), (s_lon st), (s_lat st), (s_tz st); cbn; intro H; congruence. Qed.
Lemma set_daily_base e st v : same_base (fst (set_daily e st v)) st.
Proof.
  assert (R : same_base st st) by (repeat split).
  unfold set_daily. destruct v as [f|]; [|exact R].
  destruct (negb (p_datetime f)); [exact R|]. destruct (negb (day_resolution _)); [exact R|]. destruct (negb (is_increasing _)); [exact R|].
  destruct (fill_days f) as [df|x]; [|exact R]. destruct (existsb _ _); [exact R|].
  destruct (hourly_index e (f_index df)) as [h|x]; [|exact R]. cbn [with_disagg with_daily s_tz].
  destruct (s_tz st) eqn:E; [|repeat split].
  set (st2 := with_disagg _ _). destruct (calc_sun_base st2) as (A & B & C & D). repeat split; assumption.
Qed.

(** assignment to one hourly column *)
Definition only_column (name : string) (a b : station) : Prop :=
  same_base a b /\ s_daily a = s_daily b /\ s_sun a = s_sun b /\
  (exists d d', s_disagg b = Some d /\ s_disagg a = Some d' /\ f_index d' = f_index d /\
                map fst (f_cols d') = map fst (f_cols d) /\
                (forall c, c <> name -> assoc c (f_cols d') = assoc c (f_cols d))).
Lemma put_column_ok name vals d :
  f_index (put_column name vals d) = f_index d /\ map fst (f_cols (put_column name vals d)) = map fst (f_cols d) /\
  (forall c, c <> name -> assoc c (f_cols (put_column name vals d)) = assoc c (f_cols d)).
Proof.
  split; [reflexivity|]. cbn [put_column f_cols]. split.
  - rewrite map_map. apply map_ext. intros [c v]. cbn [fst]. destruct (String.eqb_spec c name); [symmetry; assumption|reflexivity].
  - intros c NE. induction (f_cols d) as [|[k v] l IH]; [reflexivity|]. cbn [map fst assoc].
    destruct (String.eqb_spec k name) as [->|N2]; cbn [assoc].
    + destruct (String.eqb_spec name c); [congruence|exact IH].
    + destruct (String.eqb k c); [reflexivity|exact IH].
Qed.
Lemma put_only name vals st d : s_disagg st = Some d -> only_column name (with_disagg st (Some (put_column name vals d))) st.
Proof.
  intro E. split; [repeat split|]. split; [reflexivity|]. split; [reflexivity|]. exists d, (put_column name vals d).
  destruct (put_column_ok name vals d) as (A & B & C). repeat split; assumption.
Qed.
Lemma put_series_cases name s st :
  (snd (put_series name s st) <> None /\ fst (put_series name s st) = st) \/
  (snd (put_series name s st) = None /\ only_column name (fst (put_series name s st)) st).
Proof.
  unfold put_series. destruct (s_disagg st) as [d|] eqn:E; [|left; split; [discriminate|reflexivity]].
  destruct (same_labels _ _); [right; split; [reflexivity|apply put_only, E]|].
  destruct (has_dup _); [left; split; [discriminate|reflexivity]|right; split; [reflexivity|apply put_only, E]].
Qed.
Lemma put_array_cases name l st :
  (snd (put_array name l st) <> None /\ fst (put_array name l st) = st) \/
  (snd (put_array name l st) = None /\ only_column name (fst (put_array name l st)) st).
Proof.
  unfold put_array. destruct (s_disagg st) as [d|] eqn:E; [|left; split; [discriminate|reflexivity]].
  destruct (Nat.eqb _ _); [right; split; [reflexivity|apply put_only, E]|left; split; [discriminate|reflexivity]].
Qed.
Lemma finish_cases name r st :
  (snd (finish name r st) <> None /\ fst (finish name r st) = st) \/
  (snd (finish name r st) = None /\ only_column name (fst (finish name r st)) st).
Proof. destruct r as [s|x]; [apply put_series_cases|left; split; [discriminate|reflexivity]]. Qed.
Lemma wind_cases e q st m d :
  (snd (st_wind e q st m d) <> None /\ fst (st_wind e q st m d) = st) \/
  (snd (st_wind e q st m d) = None /\ only_column "wind" (fst (st_wind e q st m d)) st).
Proof.
  unfold st_wind. destruct (bind _ _) as [[[s|l] n]|x]; [apply put_series_cases|apply put_array_cases|left; split; [discriminate|reflexivity]].
Qed.
Lemma radiation_cases e q st m p :
  let r := st_radiation e q st m p in
  let st1 := match s_sun st with None => fst (calc_sun_times st) | Some _ => st end in
  same_base st1 st /\ s_daily st1 = s_daily st /\ s_disagg st1 = s_disagg st /\
  ((snd r <> None /\ fst r = st1) \/ (snd r = None /\ only_column "glob" (fst r) st1)).
Proof.
  cbv zeta. unfold st_radiation. destruct (s_sun st) as [t|] eqn:E.
  - split; [repeat split|]. split; [reflexivity|]. split; [reflexivity|]. apply finish_cases.
  - pose proof (calc_sun_base st) as B. pose proof (calc_sun_data st) as [D1 D2]. pose proof (calc_sun_err st) as X.
    destruct (calc_sun_times st) as [st1 [x|]]; cbn [fst snd] in *.
    + split; [exact B|]. split; [exact D1|]. split; [exact D2|]. left. split; [discriminate|reflexivity].
    + split; [exact B|]. split; [exact D1|]. split; [exact D2|]. apply finish_cases.
Qed.
Lemma run_data_base e q st o : same_base (fst (run_data e q st o)) st.
Proof.
  assert (R : same_base st st) by (repeat split).
  destruct o as [v| |m d|m k|m t n|m u s ms d|m p]; cbn [run_data].
  - apply set_daily_base.
  - apply calc_sun_base.
  - destruct (wind_cases e q st m d) as [[_ E]|[_ (E & _)]]; [rewrite E; exact R|exact E].
  - unfold st_humidity. match goal with |- context [finish ?n ?r st] => destruct (finish_cases n r st) as [[_ E]|[_ (E & _)]] end; [rewrite E; exact R|exact E].
  - unfold st_temperature. match goal with |- context [finish ?n ?r st] => destruct (finish_cases n r st) as [[_ E]|[_ (E & _)]] end; [rewrite E; exact R|exact E].
  - unfold st_precipitation. match goal with |- context [finish ?n ?r st] => destruct (finish_cases n r st) as [[_ E]|[_ (E & _)]] end; [rewrite E; exact R|exact E].
  - destruct (radiation_cases e q st m p) as (B & _ & _ & [[_ E]|[_ ((E1 & E2 & E3 & E4) & _)]]).
    + rewrite E. exact B.
    + destruct B as (B1 & B2 & B3 & B4). repeat split; congruence.
Qed.

(** ** location of the statistics objects *)
Section Fits.
  Variable curve_fit : list row4 -> res (xr * xr).
  Variable minimize_bias : list row4 -> res (xr * xr).
  Variable fit_cosine : list (xr * Z * xr) -> res (xr * xr * xr).
  Variable linregress : list (xr * xr) -> res (xr * xr).
  Variable percentile : xr -> list xr -> res xr.
  Notation run_stat := (run_stat curve_fit minimize_bias fit_cosine linregress percentile).
  Notation step := (step curve_fit minimize_bias fit_cosine linregress percentile).
  Notation run := (run curve_fit minimize_bias fit_cosine linregress percentile).

  Definition same_place (a b : sstats) : Prop := q_lon a = q_lon b /\ q_lat a = q_lat b /\ q_tz a = q_tz b.
  Lemma run_stat_place e q o : same_place (fst (run_stat e q o)) q.
  Proof.
    assert (R : same_place q q) by (repeat split).
    destruct o as [v|m avg p| | | |d l h]; cbn [StationModel.run_stat].
    - unfold set_data. destruct v as [f|]; [|exact R]. destruct (negb (p_datetime f)); [exact R|]. destruct (negb _); exact R.
    - unfold calc_precipitation_stats. destruct (match m with None => _ | Some l => l end) as [|[[|k r]|] ms]; try (repeat split; fail);
        (destruct (q_data q) as [d|]; [|repeat split]); (destruct (assoc _ _); [|repeat split]); destruct (build_casc _ _ _ _ _ _ _ _) as [[[h o] out]|x]; repeat split.
    - unfold calc_wind_stats. destruct (bind _ _) as [[[a b] s]|x]; repeat split.
    - unfold calc_humidity_stats. destruct (let* d := match q_data q with None => _ | _ => _ end in _) as [[a b]|x]; [|exact R].
      destruct (bind _ _); repeat split.
    - unfold calc_temperature_stats. destruct (bind _ _) as [[a b]|x]; repeat split.
    - unfold st_radiation_stats. destruct (calc_radiation_stats _ _ _ _ _ _ _ _ _ _ _) as [g x]. repeat split.
  Qed.

  Definition synced (w : world) : Prop := forall i st, nth_error (w_stations w) i = Some st -> in_sync w st.

  Lemma nth_stats_of w r q : nth_error (w_stats w) r = Some q -> stats_of w r = q.
  Proof. intro H. unfold stats_of. apply nth_error_nth, H. Qed.

  (** writing the location of station i into its own statistics object *)
  Lemma locate_synced w i st lon lat tz q : unshared w -> synced w -> nth_error (w_stations w) i = Some st ->
    q_lon q = lon -> q_lat q = lat -> q_tz q = tz ->
    synced (upd_stats (upd_station w i (locate_station st lon lat tz)) (s_stats st) q).
  Proof.
    intros U S Hi L1 L2 L3 j sj Hj. cbn [upd_stats upd_station w_stations] in Hj. rewrite nth_upd in Hj. unfold in_sync. cbn [upd_stats upd_station w_stats].
    destruct (Nat.eqb_spec i j) as [<-|NE].
    - rewrite Hi in Hj. injection Hj as <-. cbn [locate_station s_stats s_lon s_lat s_tz].
      destruct (S i st Hi) as (q0 & Hq & _). exists q. rewrite nth_upd, Nat.eqb_refl, Hq. repeat split; assumption.
    - destruct (S j sj Hj) as (q0 & Hq & A). exists q0. split; [|exact A]. rewrite nth_upd.
      destruct (Nat.eqb_spec (s_stats st) (s_stats sj)) as [EQ|]; [exfalso; apply NE; exact (U i j st sj Hi Hj EQ)|exact Hq].
  Qed.
  Lemma set_lon_synced w i v : unshared w -> synced w -> synced (set_lon w i v).
  Proof.
    intros U S. unfold set_lon. destruct (nth_error (w_stations w) i) as [st|] eqn:Hi; [|exact S].
    destruct (S i st Hi) as (q0 & Hq & L1 & L2 & L3).
    rewrite (nth_stats_of (upd_station w i _) (s_stats st) q0) by exact Hq.
    apply locate_synced; try assumption; reflexivity.
  Qed.
  Lemma set_lat_synced w i v : unshared w -> synced w -> synced (set_lat w i v).
  Proof.
    intros U S. unfold set_lat. destruct (nth_error (w_stations w) i) as [st|] eqn:Hi; [|exact S].
    destruct (S i st Hi) as (q0 & Hq & L1 & L2 & L3).
    rewrite (nth_stats_of (upd_station w i _) (s_stats st) q0) by exact Hq.
    apply locate_synced; try assumption; reflexivity.
  Qed.
  Lemma set_tz_synced w i v : unshared w -> synced w -> synced (set_tz w i v).
  Proof.
    intros U S. unfold set_tz. destruct (nth_error (w_stations w) i) as [st|] eqn:Hi; [|exact S].
    destruct (S i st Hi) as (q0 & Hq & L1 & L2 & L3).
    rewrite (nth_stats_of (upd_station w i _) (s_stats st) q0) by exact Hq.
    apply locate_synced; try assumption; reflexivity.
  Qed.
  (** these setters do not change who owns what *)
  Definition same_owner (w w' : world) : Prop :=
    length (w_stats w') = length (w_stats w) /\ map s_stats (w_stations w') = map s_stats (w_stations w).
  Lemma unshared_owner w w' : map s_stats (w_stations w') = map s_stats (w_stations w) -> unshared w -> unshared w'.
  Proof.
    intros E U i j a b Ha Hb EQ.
    assert (A : nth_error (map s_stats (w_stations w)) i = Some (s_stats a)) by (rewrite <- E; apply map_nth_error, Ha).
    assert (B : nth_error (map s_stats (w_stations w)) j = Some (s_stats b)) by (rewrite <- E; apply map_nth_error, Hb).
    destruct (nth_error (w_stations w) i) as [a'|] eqn:Ea.
    2:{ apply nth_error_None in Ea. assert (nth_error (map s_stats (w_stations w)) i = None) by (apply nth_error_None; rewrite map_length; exact Ea). congruence. }
    destruct (nth_error (w_stations w) j) as [b'|] eqn:Eb.
    2:{ apply nth_error_None in Eb. assert (nth_error (map s_stats (w_stations w)) j = None) by (apply nth_error_None; rewrite map_length; exact Eb). congruence. }
    rewrite (map_nth_error _ _ _ Ea) in A. rewrite (map_nth_error _ _ _ Eb) in B.
    apply (U i j a' b' Ea Eb). congruence.
  Qed.
  Lemma map_upd {A B} (f : A -> B) i x y l : nth_error l i = Some y -> f x = f y -> map f (upd i x l) = map f l.
  Proof. revert i. induction l as [|a l IH]; intros [|i] H E; cbn in *; try discriminate; [congruence|]. f_equal. apply IH; assumption. Qed.
  Lemma set_lon_owner w i v : map s_stats (w_stations (set_lon w i v)) = map s_stats (w_stations w).
  Proof. unfold set_lon. destruct (nth_error (w_stations w) i) eqn:E; [|reflexivity]. cbn. eapply map_upd; [exact E|reflexivity]. Qed.
  Lemma set_lat_owner w i v : map s_stats (w_stations (set_lat w i v)) = map s_stats (w_stations w).
  Proof. unfold set_lat. destruct (nth_error (w_stations w) i) eqn:E; [|reflexivity]. cbn. eapply map_upd; [exact E|reflexivity]. Qed.
  Lemma set_tz_owner w i v : map s_stats (w_stations (set_tz w i v)) = map s_stats (w_stations w).
  Proof. unfold set_tz. destruct (nth_error (w_stations w) i) eqn:E; [|reflexivity]. cbn. eapply map_upd; [exact E|reflexivity]. Qed.

  Lemma set_stats_synced w i r : (r < length (w_stats w))%nat -> synced w -> unshared (set_stats w i r) -> synced (set_stats w i r).
  Proof.
    intros Hr S U j sj Hj. unfold set_stats in *. destruct (nth_error (w_stations w) i) as [st|] eqn:Hi; [|exact (S j sj Hj)].
    cbn [upd_stats upd_station w_stations w_stats] in Hj. pose proof Hj as Hj0. rewrite nth_upd in Hj. unfold in_sync. cbn [upd_stats upd_station w_stations w_stats].
    destruct (Nat.eqb_spec i j) as [<-|NE].
    - rewrite Hi in Hj. injection Hj as <-. cbn [s_stats s_lon s_lat s_tz]. eexists. rewrite nth_upd_same by exact Hr. split; [reflexivity|]. repeat split.
    - destruct (S j sj Hj) as (q0 & Hq & A). exists q0. split; [|exact A]. rewrite nth_upd_other; [exact Hq|].
      intro EQ. apply NE. eapply (U i j).
      + cbn [upd_stats upd_station w_stations]. rewrite nth_upd_same; [reflexivity|]. apply nth_error_Some. congruence.
      + exact Hj0.
      + exact EQ.
  Qed.

  Lemma upd_synced w i st st' : same_base st' st -> nth_error (w_stations w) i = Some st -> synced w -> synced (upd_station w i st').
  Proof.
    intros (B1 & B2 & B3 & B4) Hi S j sj Hj. cbn [upd_station w_stations] in Hj. rewrite nth_upd in Hj. unfold in_sync. cbn [upd_station w_stats].
    destruct (Nat.eqb_spec i j) as [<-|NE]; [|apply (S j sj Hj)].
    rewrite Hi in Hj. injection Hj as <-. rewrite B1, B2, B3, B4. apply (S i st Hi).
  Qed.

  (** the constructor *)
  Definition blank (r : nat) : station :=
    {| s_lon := None; s_lat := None; s_tz := None; s_stats := r; s_daily := None; s_disagg := None; s_sun := None |}.
  Lemma stats_ref w i st : synced w -> nth_error (w_stations w) i = Some st -> (s_stats st < length (w_stats w))%nat.
  Proof. intros S H. destruct (S i st H) as (q & Hq & _). apply nth_error_Some. congruence. Qed.

  Lemma new_station_ok e w lon lat tz daily w' err :
    synced w -> unshared w -> new_station e w lon lat tz daily = (w', err) ->
    w' = w \/ (synced w' /\ unshared w').
  Proof.
    intros S U H. unfold new_station in H. fold (blank (length (w_stats w))) in H.
    set (i := length (w_stations w)) in *. set (r := length (w_stats w)) in *.
    set (w1 := {| w_stats := w_stats w ++ [new_stats lon lat None]; w_stations := w_stations w ++ [blank r] |}) in *.
    assert (Hi : nth_error (w_stations w1) i = Some (blank r)) by (cbn; unfold i; rewrite nth_error_app2, Nat.sub_diag by lia; reflexivity).
    assert (U1 : unshared w1).
    { intros a b sa sb Ha Hb EQ. cbn [w1 w_stations] in Ha, Hb.
      destruct (Nat.ltb_spec a i) as [La|Ga], (Nat.ltb_spec b i) as [Lb|Gb].
      - rewrite nth_error_app1 in Ha, Hb by assumption. exact (U a b sa sb Ha Hb EQ).
      - rewrite nth_error_app1 in Ha by assumption. rewrite nth_error_app2 in Hb by assumption.
        destruct (b - length (w_stations w))%nat as [|k] eqn:K; [|destruct k; discriminate Hb]. cbn in Hb. injection Hb as <-.
        pose proof (stats_ref w a sa S Ha). cbn in EQ. unfold r in EQ. lia.
      - rewrite nth_error_app1 in Hb by assumption. rewrite nth_error_app2 in Ha by assumption.
        destruct (a - length (w_stations w))%nat as [|k] eqn:K; [|destruct k; discriminate Ha]. cbn in Ha. injection Ha as <-.
        pose proof (stats_ref w b sb S Hb). cbn in EQ. unfold r in EQ. lia.
      - assert (a < length (w_stations w ++ [blank r]))%nat by (apply nth_error_Some; congruence).
        assert (b < length (w_stations w ++ [blank r]))%nat by (apply nth_error_Some; congruence).
        rewrite app_length in *. cbn in *. unfold i in *. lia. }
    assert (S1 : synced (set_stats w1 i r)).
    { intros j sj Hj. unfold set_stats in *. rewrite Hi in *. cbn [upd_stats upd_station w_stations w_stats w1] in Hj. unfold in_sync. cbn [upd_stats upd_station w_stations w_stats w1].
      rewrite nth_upd in Hj. destruct (Nat.eqb_spec i j) as [<-|NE].
      - cbn [w1 w_stations] in Hi. rewrite Hi in Hj. injection Hj as <-. cbn [s_stats blank s_lon s_lat s_tz].
        eexists. rewrite nth_upd_same by (rewrite app_length; cbn; unfold r; lia). split; [reflexivity|]. repeat split.
      - assert (Lj : (j < i)%nat).
        { assert (j < length (w_stations w ++ [blank r]))%nat by (apply nth_error_Some; congruence). rewrite app_length in *. cbn in *. unfold i in *. lia. }
        rewrite nth_error_app1 in Hj by exact Lj. destruct (S j sj Hj) as (q0 & Hq & A). exists q0. split; [|exact A].
        pose proof (stats_ref w j sj S Hj). rewrite nth_upd_other by (unfold r; lia). rewrite nth_error_app1 by assumption. exact Hq. }
    assert (O1 : map s_stats (w_stations (set_stats w1 i r)) = map s_stats (w_stations w1)).
    { unfold set_stats. rewrite Hi. cbn [upd_stats upd_station w_stations]. eapply map_upd; [exact Hi|reflexivity]. }
    assert (US : unshared (set_stats w1 i r)) by (apply (unshared_owner w1); assumption).
    set (wa := set_lon (set_stats w1 i r) i lon) in *.
    assert (Sa : synced wa) by (apply set_lon_synced; assumption).
    assert (Ua : unshared wa) by (eapply unshared_owner; [apply set_lon_owner|exact US]).
    set (wb := set_lat wa i lat) in *.
    assert (Sb : synced wb) by (apply set_lat_synced; assumption).
    assert (Ub : unshared wb) by (eapply unshared_owner; [apply set_lat_owner|exact Ua]).
    set (wc := set_tz wb i tz) in *.
    assert (Sc : synced wc) by (apply set_tz_synced; assumption).
    assert (Uc : unshared wc) by (eapply unshared_owner; [apply set_tz_owner|exact Ub]).
    clearbody wc. clear - H Sc Uc.
    destruct daily as [v|]; [|injection H as <- <-; right; split; assumption].
    destruct (nth_error (w_stations wc) i) as [st|] eqn:Hi; [|injection H as <- <-; right; split; assumption].
    pose proof (set_daily_base e st v) as B. destruct (set_daily e st v) as [st' [x|]]; injection H as <- <-; [left; reflexivity|].
    right. cbn [fst] in B. split; [eapply upd_synced; eassumption|].
    eapply unshared_owner; [|exact Uc]. cbn [upd_station w_stations]. eapply map_upd; [exact Hi|]. apply B.
  Qed.

  Lemma step_synced e w o : synced w -> unshared w -> unshared (fst (step e w o)) -> synced (fst (step e w o)).
  Proof.
    intros S U U'. destruct o as [lon lat tz|lon lat tz d|i v|i v|i v|i [r|]|r o|i o]; cbn [StationModel.step fst] in *.
    - intros j sj Hj. cbn [w_stations] in Hj. destruct (S j sj Hj) as (q0 & Hq & A). exists q0. split; [|exact A]. cbn [w_stats].
      rewrite nth_error_app1; [exact Hq|]. apply nth_error_Some. congruence.
    - destruct (new_station e w lon lat tz d) as [w' err] eqn:E. cbn [fst] in *.
      destruct (new_station_ok _ _ _ _ _ _ _ _ S U E) as [->|[A _]]; assumption.
    - apply set_lon_synced; assumption.
    - apply set_lat_synced; assumption.
    - apply set_tz_synced; assumption.
    - destruct (Nat.ltb_spec r (length (w_stats w))) as [L|]; cbn [fst] in *; [apply set_stats_synced; assumption|exact S].
    - exact S.
    - destruct (nth_error (w_stats w) r) as [q|] eqn:E; [|exact S]. pose proof (run_stat_place e q o) as P.
      destruct (run_stat e q o) as [q' err]. cbn [fst] in *. destruct P as (P1 & P2 & P3).
      intros j sj Hj. cbn [upd_stats w_stations] in Hj. destruct (S j sj Hj) as (q0 & Hq & A1 & A2 & A3). unfold in_sync. cbn [upd_stats w_stats].
      rewrite nth_upd. destruct (Nat.eqb_spec r (s_stats sj)) as [->|NE]; [|exists q0; repeat split; assumption].
      rewrite Hq. assert (q0 = q) by congruence. subst q0. exists q'. repeat split; congruence.
    - destruct (nth_error (w_stations w) i) as [st|] eqn:E; [|exact S]. pose proof (run_data_base e (stats_of w (s_stats st)) st o) as B.
      destruct (run_data e (stats_of w (s_stats st)) st o) as [st' err]. cbn [fst] in *. eapply upd_synced; eassumption.
  Qed.

  Lemma run_app e a b w : run e (a ++ b) w = run e b (run e a w).
  Proof. apply fold_left_app. Qed.
  Lemma run_synced e ops : (forall k, unshared (run e (firstn k ops) empty_world)) -> synced (run e ops empty_world).
  Proof.
    induction ops as [|o ops IH] using rev_ind; intro H.
    - intros i st Hi. destruct i; discriminate Hi.
    - assert (P : forall k, unshared (run e (firstn k ops) empty_world)).
      { intro k. destruct (Nat.leb_spec k (length ops)) as [L|L].
        - specialize (H k). rewrite firstn_app in H. replace (k - length ops)%nat with O in H by lia. rewrite app_nil_r in H. exact H.
        - rewrite firstn_all2 by lia. specialize (H (length ops)). rewrite firstn_app, Nat.sub_diag, app_nil_r, firstn_all in H. exact H. }
      rewrite run_app. cbn [StationModel.run fold_left]. apply step_synced.
      + apply IH, P.
      + specialize (P (length ops)). rewrite firstn_all in P. exact P.
      + specialize (H (length (ops ++ [o]))). rewrite firstn_all, run_app in H. exact H.
  Qed.

  (** ** sun times *)
  Lemma put_sun name s st : s_sun (fst (put_series name s st)) = s_sun st.
  Proof. unfold put_series. destruct (s_disagg st); [|reflexivity]. destruct (same_labels _ _); [reflexivity|]. destruct (has_dup _); reflexivity. Qed.
End Fits.
