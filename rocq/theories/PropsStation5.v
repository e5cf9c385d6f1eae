(** Property C93: calibrating the cascade from a record and using it at a station. *)
From Coq Require Import String ZArith List Bool Reals Sorted Lia Lra.
From Verif Require Import Py Num Cal Series Frame SpecBase TimeProofs IndexProofs DaysProofs InterpProofs TempProofs RadBC UtilModel CascadeModel PrecipModel SpecCascade CascadeMore PropsCascade MasterProofs PropsPrecip
  AggModel BuildProofs BuildExact SpecBuild SpecAgg AggProofs AggExact PropsAgg Trans UtilModel2 SpecUtil UtilProofs SpecRad RadProofs SunProofs TempModel RadModel RadStats HumModel HumProofs PropsHum WindModel PropsWind PropsTemp
  StationModel SpecStation StationProofs StationDaily StationCascade PropsStation PropsStation2 PropsStation3 SpecCalib CalibCasc.
Import ListNotations.
Open Scope Z_scope.

(** a record of amounts *)
Definition amounts_series (rows : list (Z * amt)) : series xr := map (fun p => (fst p, to_xr (snd p))) rows.
Definition zeroed (rows : list (Z * amt)) : list (Z * amt) := map (fun p => (fst p, match snd p with None => Some 0%R | a => a end)) rows.
Lemma zero_series rows : zero_filled (amounts_series rows) = amounts_series (zeroed rows).
Proof.
  unfold zero_filled, amounts_series, zeroed. rewrite !map_map. apply map_ext. intros [t [r|]]; cbn [fst snd to_xr n_isnan Num_xr]; [reflexivity|]. rewrite n0_xr. reflexivity.
Qed.
Lemma zeroed_fst rows : map fst (zeroed rows) = map fst rows.
Proof. unfold zeroed. rewrite map_map. apply map_ext. reflexivity. Qed.
Lemma zeroed_nonneg rows : Forall (fun p => nonneg (snd p)) rows -> Forall (fun p => nonneg (snd p)) (zeroed rows).
Proof.
  intro F. unfold zeroed. apply Forall_forall. intros p Hp. apply in_map_iff in Hp as ([t a] & <- & HI). rewrite Forall_forall in F. specialize (F _ HI). destruct a; cbn in *; [exact F|lra].
Qed.
Lemma subset_amounts rows mo : StronglySorted Z.lt (map fst rows) -> season_months mo <> [] -> NoDup (season_months mo) ->
  exists sub, seasonal_subset (amounts_series rows) mo = Ok sub /\ map snd sub = map to_xr (season_amounts 0 mo rows).
Proof.
  intros SS NE ND. eexists. split.
  - transitivity (seasonal_subset (amounts_series rows) (Some (season_months mo))); [destruct mo; reflexivity|].
    apply seasonal_exact; [exact NE|exact ND|]. unfold amounts_series. rewrite map_map. exact SS.
  - unfold amounts_series, season_amounts. induction rows as [|[t a] rows IH]; [reflexivity|]. cbn [map fst snd filter].
    cbn [map fst] in SS. apply StronglySorted_inv in SS as [SS _]. destruct (mem (month_of t) (season_months mo)); cbn [map snd]; [f_equal|]; apply IH, SS.
Qed.
Lemma season_zeroed k mo rows : season_amounts 0 mo (zeroed rows) = season_amounts (S k) mo rows.
Proof.
  unfold season_amounts, zeroed. induction rows as [|[t a] rows IH]; [reflexivity|]. cbn [map fst filter].
  destruct (mem (month_of t) (season_months mo)); cbn [map snd]; [f_equal|]; apply IH.
Qed.
Lemma subset_season k rows mo : StronglySorted Z.lt (map fst rows) -> season_months mo <> [] -> NoDup (season_months mo) ->
  exists sub, seasonal_subset (season_data k (amounts_series rows)) mo = Ok sub /\ map snd sub = map to_xr (season_amounts k mo rows).
Proof.
  intros SS NE ND. destruct k as [|k]; cbn [season_data]; [apply subset_amounts; assumption|]. rewrite zero_series, <- season_zeroed.
  apply subset_amounts; [rewrite zeroed_fst|..]; assumption.
Qed.
Lemma season_nonneg k mo rows : Forall (fun p => nonneg (snd p)) rows -> Forall nonneg (season_amounts k mo rows).
Proof.
  intro F. unfold season_amounts. apply Forall_forall. intros a Ha. apply in_map_iff in Ha as ([t b] & <- & HI). apply filter_In in HI as [HI _].
  rewrite Forall_forall in F. specialize (F _ HI). cbn [snd] in *. destruct k, b; cbn; try exact F; lra.
Qed.
Lemma build_error z perc L avg : (0 <= z <= 100)%Z -> L <> O -> forall ms rows h acc x, StronglySorted Z.lt (map fst rows) -> Forall (fun p => nonneg (snd p)) rows ->
  (forall mo, In mo ms -> season_months mo <> [] /\ NoDup (season_months mo)) ->
  build_seasons (np_percentile z) perc L avg h (amounts_series rows) ms acc = Err x -> x = IndexError.
Proof.
  intros Hz NL. induction ms as [|mo ms IH]; intros rows h acc x SS NN WF E; [discriminate E|]. cbn [build_seasons] in E.
  destruct (WF mo (or_introl eq_refl)) as [NE ND]. destruct (subset_amounts rows mo SS NE ND) as (sub & ES & EV).
  destruct (build_season (np_percentile z) perc L avg h (amounts_series rows) mo) as [[[h1 obs1] st]|y] eqn:EB; cbn [bind] in E.
  - assert (O1 : obs1 = amounts_series (zeroed rows)).
    { rewrite <- zero_series. unfold build_season in EB. rewrite ES in EB. cbn [bind] in EB. destruct (alloc_casc h casc_init) as [h2 total].
      destruct (levels_loop _ _ _ _ _ _ _ _ _) as [[[[h3 cp] thr] ct]|]; cbn [bind] in EB; [|discriminate EB].
      destruct (ct =? 0)%Z; [discriminate EB|]. destruct (new_arr _ _) as [h4 t]. injection EB as _ <- _. reflexivity. }
    rewrite O1 in E. eapply IH; [| | |exact E]; [rewrite zeroed_fst; exact SS|apply zeroed_nonneg, NN|intros m Hm; apply WF; right; exact Hm].
  - assert (y = x) by congruence. subst y. unfold build_season in EB. rewrite ES in EB. cbn [bind] in EB. destruct (alloc_casc h casc_init) as [h2 total].
    destruct (levels_loop _ _ _ _ _ _ _ _ _) as [[[[h3 cp] thr] ct]|y] eqn:EL; cbn [bind] in EB.
    + assert (HP : forall m, np_percentile z ([] : list xr) <> Ok m) by (intro m; unfold np_percentile; destruct ((z <? 0) || (100 <? z))%bool; discriminate).
      destruct (loop_count _ _ HP _ _ _ _ _ _ _ _ _ _ _ EL) as [_ P]. specialize (P NL).
      destruct (ct =? 0)%Z eqn:Q; [lia|]. destruct (new_arr _ _) as [h4 t]. discriminate EB.
    + assert (y = x) by congruence. subst y. eapply (loop_error z perc Hz); [exact EV|apply season_nonneg, NN|exact EL].
Qed.

(** ** C93 *)
(** the record of the statistics object holds the given amounts *)
Definition rain_record (q : sstats) (rows : list (Z * amt)) : Prop :=
  (exists d, q_data q = Some d /\ f_index d = map fst rows /\ assoc "precip" (f_cols d) = Some (map (fun p => to_xr (snd p)) rows)) /\
  StronglySorted Z.lt (map fst rows) /\ Forall (fun p => nonneg (snd p)) rows.
Definition good_seasons (ms : list (option (list Z))) : Prop := forall mo, In mo ms -> season_months mo <> [] /\ NoDup (season_months mo).

(** the calibration succeeds exactly if every season has 64 hours and a complete wet block of 32 hours; otherwise IndexError *)
Theorem C93_calibrates cf mb fc lr pc e q rows months avg perc z : pc perc = np_percentile z -> 0 <= z <= 100 ->
  rain_record q rows -> good_seasons (seasons_arg months) ->
  let (q', err) := run_stat cf mb fc lr pc e q (QPrecip months avg perc) in
  (err = None <-> forall k mo, nth_error (seasons_arg months) k = Some mo -> enough 5 (season_amounts k mo rows)) /\
  (err = None \/ err = Some IndexError).
Proof.
  intros HP Hz ((d & QD & EI & EO) & SS & NN) GS. set (ms := seasons_arg months) in *. assert (EM : ms = [] \/ ms <> []) by (destruct ms; [left|right]; congruence). destruct EM as [EM|NM].
  { cbn [run_stat]. unfold calc_precipitation_stats. fold all_months. change [Some all_months] with one_season. fold (seasons_arg months). fold ms. rewrite EM.
    split; [|left; reflexivity]. split; [|reflexivity]. intros _ k mo HK. destruct k; discriminate HK. }
  rewrite (precip_stats_shape cf mb fc lr pc e q months avg perc d _ QD EO); [|intros mo HD X; destruct (GS mo); [fold ms in HD; destruct ms; [discriminate|left; cbn in HD; congruence]|subst mo; auto]|exact NM].
  fold ms. rewrite HP.
  assert (ER : combine (f_index d) (map (fun p => to_xr (snd p)) rows) = amounts_series rows).
  { rewrite EI. unfold amounts_series. clear. induction rows as [|p rows IH]; [reflexivity|]. cbn. f_equal. exact IH. }
  rewrite ER. destruct (build_casc _ _ _ _ _ _ _ _) as [[[h' obs'] sts]|x] eqn:EB; cbn [bind].
  - split; [|left; reflexivity]. split; [|reflexivity]. intros _ k mo HK. destruct (GS mo (nth_error_In _ _ HK)) as [NE ND].
    destruct (build_char z perc true 9 avg (Some ms) _ _ h' obs' sts nan0_xr wf_empty EB) as (_ & _ & _ & C). cbn [seasons_of n_levels] in C.
    destruct (C k mo HK) as (sub & st & _ & E2 & ls & LV & _). destruct (subset_season k rows mo SS NE ND) as (sub2 & E3 & EV).
    assert (sub2 = sub) by congruence. subst sub2. exact (levels_need z perc Hz 4 sub _ ls EV (season_nonneg k mo rows NN) LV).
  - assert (X : x = IndexError).
    { unfold build_casc in EB. eapply (build_error z perc 5 avg Hz ltac:(discriminate)); [exact SS|exact NN|exact GS|exact EB]. }
    subst x. split; [|right; reflexivity]. split; [discriminate|]. intro EN. exfalso.
    destruct (C19_succeeds z perc true 9 avg (Some ms) {| arrs := []; objs := [] |} (amounts_series rows) nan0_xr ltac:(discriminate)) as (a & b & c & E); [|congruence].
    intros k mo HK. cbn [seasons_of] in HK. destruct (GS mo (nth_error_In _ _ HK)) as [NE ND]. destruct (subset_season k rows mo SS NE ND) as (sub & E3 & EV).
    destruct (levels_enough z perc Hz 5 sub _ EV (season_nonneg k mo rows NN) (or_intror (EN k mo HK))) as (ls & LV & _). exists sub, ls. split; assumption.
Qed.
Print Assumptions C93_calibrates.

(** the days of a season inside the record, if there is no gap *)
Lemma filter_daily_none {A} (P : Z -> bool) d0 (l : list A) : (forall d, d0 <= d < d0 + Z.of_nat (length l) -> P d = false) ->
  filter (fun p => P (date_of (fst p))) (daily d0 l) = [].
Proof.
  revert d0. induction l as [|a l IH]; intros d0 H; [reflexivity|]. rewrite daily_cons. cbn [filter fst]. rewrite day_start_date. rewrite H by (cbn [length]; lia).
  apply IH. intros d Hd. apply H. cbn [length]. lia.
Qed.
Lemma filter_daily_block {A} (P : Z -> bool) : forall (l : list A) d0,
  (forall a g b, d0 <= a < g -> g < b < d0 + Z.of_nat (length l) -> P a = true -> P b = true -> P g = true) ->
  exists d1 l', filter (fun p => P (date_of (fst p))) (daily d0 l) = daily d1 l' /\ (l <> [] -> P d0 = true -> d1 = d0).
Proof.
  induction l as [|a l IH]; intros d0 H; [exists d0, []; split; [reflexivity|congruence]|]. rewrite daily_cons. cbn [filter fst]. rewrite day_start_date.
  destruct (IH (d0 + 1)) as (d1 & l' & E & F); [intros x g b H1 H2; apply H; cbn [length]; lia|].
  destruct (P d0) eqn:P0.
  - destruct l as [|a' l]; [exists d0, [a]; rewrite daily_cons; split; [reflexivity|reflexivity]|].
    destruct (P (d0 + 1)) eqn:P1.
    + rewrite E. rewrite (F ltac:(discriminate) eq_refl). exists d0, (a :: l'). rewrite daily_cons. split; [reflexivity|reflexivity].
    + rewrite filter_daily_none; [exists d0, [a]; rewrite daily_cons; split; [reflexivity|reflexivity]|]. intros d Hd.
      destruct (P d) eqn:Pd; [|reflexivity]. destruct (Z.eq_dec d (d0 + 1)) as [->|NE]; [congruence|].
      rewrite <- P1. symmetry. apply (H d0 (d0 + 1) d); [lia|cbn [length] in *; lia|exact P0|exact Pd].
  - exists d1, l'. split; [exact E|discriminate].
Qed.
(** no gap between two days of the season *)
Definition no_gap (mo : option (list Z)) (d0 : Z) (n : nat) : Prop :=
  forall a g b, d0 <= a < g -> g < b < d0 + Z.of_nat n -> season_day mo a -> season_day mo b -> season_day mo g.
Lemma month_date t : month_of t = month_of_day (date_of t).
Proof. reflexivity. Qed.
Lemma seasons_succeed e d0 amounts u shft draws : Forall amount_ok amounts -> 
  forall seasons k g, (forall mo arg, In (mo, arg) seasons -> season_months mo <> [] /\ NoDup (season_months mo) /\ no_gap mo d0 (length amounts) /\ forall j, stats_fine arg (draws j) 5) ->
  exists g', st_seasons e (daily d0 amounts) u shft draws k seasons (map (fun t => (t, g t)) (hours_index d0 (length amounts))) = Ok (map (fun t => (t, g' t)) (hours_index d0 (length amounts))).
Proof.
  intro AO. induction seasons as [|[mo arg] r IH]; intros k g H; [exists g; reflexivity|]. cbn [st_seasons].
  destruct (H mo arg (or_introl eq_refl)) as (NE & ND & NG & SF). rewrite season_subset by assumption. cbn [bind]. set (sub := filter _ _).
  assert (H' : forall mo arg, In (mo, arg) r -> season_months mo <> [] /\ NoDup (season_months mo) /\ no_gap mo d0 (length amounts) /\ forall j, stats_fine arg (draws j) 5) by (intros; apply H; right; assumption).
  destruct (Nat.ltb_spec 1 (length sub)) as [L|L]; [|cbn [bind]; apply IH, H'].
  assert (B : exists d1 l', sub = daily d1 l').
  { destruct (filter_daily_block (fun d => mem (month_of_day d) (season_months mo)) amounts d0) as (d1 & l' & E & _); [|exists d1, l'; exact E].
    intros a gg b H1 H2 Pa Pb. apply mem_In. apply mem_In in Pa, Pb. exact (NG a gg b H1 H2 Pa Pb). }
  destruct B as (d1 & l' & ES).
  assert (IN : forall i v, nth_error l' i = Some v -> exists i0, nth_error amounts i0 = Some v /\ d1 + Z.of_nat i = d0 + Z.of_nat i0).
  { intros i v Hi. assert (X : In ((d1 + Z.of_nat i) * us_day, v) sub) by (rewrite ES; apply daily_In; exists i; auto).
    apply filter_In in X as [X _]. apply daily_In in X as (i0 & Hi0 & E). exists i0. split; [exact Hi0|]. unfold us_day in E. lia. }
  assert (AO' : Forall amount_ok l').
  { apply Forall_forall. intros v Hv. apply In_nth_error in Hv as (i & Hi). destruct (IN i v Hi) as (i0 & Hi0 & _). rewrite Forall_forall in AO. exact (AO v (nth_error_In _ _ Hi0)). }
  assert (LL : length sub = length l') by (rewrite ES; unfold daily, daily_index; rewrite combine_length, grid_length; lia).
  rewrite ES. cbn [disagg_prec]. destruct (C08_never_fails_exact e d1 l' arg 9 shft (draws k) 0 ltac:(lia) AO' (SF k)) as (data & E). rewrite E. cbn [bind].
  pose proof (C05_hourly_time_stamps e d1 _ _ _ _ _ _ _ E) as IX.
  assert (OV : overlay (map (fun t => (t, g t)) (hours_index d0 (length amounts))) data = Ok (map (fun t => (t, match lookup t data with Some v => v | None => g t end)) (hours_index d0 (length amounts)))).
  { unfold overlay. replace (forallb _ _) with true.
    - f_equal. rewrite map_map. reflexivity.
    - symmetry. apply forallb_forall. intros t Ht. apply mem_In. unfold index in *. rewrite map_map, map_id. rewrite IX in Ht.
      unfold hours_index in *. apply grid_In in Ht as (j & Hj & ->).
      destruct (nth_error l' 0) as [v0|] eqn:E0; [|apply nth_error_None in E0; lia]. destruct (IN 0%nat v0 E0) as (i0 & Hi0 & Q0).
      destruct (nth_error l' (length l' - 1)) as [v1|] eqn:E1; [|apply nth_error_None in E1; lia]. destruct (IN _ v1 E1) as (i1 & Hi1 & Q1).
      assert (i1 < length amounts)%nat by (apply nth_error_Some; congruence).
      apply grid_In. exists (24 * i0 + j)%nat. unfold us_day, us_hour in *. split; [lia|]. lia. }
  rewrite OV. cbn [bind]. apply IH, H'.
Qed.

(** the statistics of a calibrated season are fine for every stream of draws up to 1 - 10^-15 *)
Definition moderate_draws (draws : nat -> nat -> xr) : Prop := forall k j, exists u, draws k j = Fin u /\ (u <= 1 - 1 / 10 ^ 15)%R.
Lemma calibrated_fine z perc avg sub d ls arg draws : (0 <= z <= 100)%Z -> map snd sub = map to_xr d -> Forall nonneg d ->
  levels_of (np_percentile z) perc 5 sub ls -> is_season avg ls arg -> moderate_draws draws -> forall j, stats_fine arg (draws j) 5.
Proof.
  intros Hz EV NN LV IS MD j. pose proof (levels_fine z perc Hz 5 sub d ls EV NN LV) as F. destruct (levels_positive z perc 5 sub ls LV) as [LL LP].
  unfold is_season in IS. destruct avg.
  - destruct IS as (c & -> & ET & _ & _ & _ & EW). split.
    + apply (f_equal (@length _)) in ET. rewrite !map_length, LL in ET. lia.
    + apply fine_reach; [|apply MD]. apply (mean_fine ls c); [destruct ls; [discriminate LL|discriminate]|exact LP| |exact EW].
      eapply Forall_impl; [|exact F]. intros l [W _]. exact W.
  - subst arg. split; [rewrite map_length; exact LL|]. apply Forall_forall. intros c Hc. apply in_map_iff in Hc as (l & <- & Hl).
    rewrite Forall_forall in F. destruct (F l Hl) as [W T]. split; [exact T|]. apply fine_reach; [exact W|apply MD].
Qed.

(** after a successful calibration the cascade succeeds at every station whose record has no gap in a season, and
    only there: for all amounts, all shifts and all draws up to 1 - 10^-15 *)
Theorem C93_disaggregates cf mb fc lr pc e q rows months avg perc z q' st d0 n dd amounts u shft master draws :
  pc perc = np_percentile z -> 0 <= z <= 100 -> rain_record q rows -> good_seasons (seasons_arg months) ->
  run_stat cf mb fc lr pc e q (QPrecip months avg perc) = (q', None) ->
  has_index_to_datetime e = false -> ready st d0 n dd -> has_column dd "precip" amounts -> Forall amount_ok amounts -> moderate_draws draws ->
  ((exists st', st_precipitation e q' st "cascade" u shft master draws = (st', None)) <->
   forall mo, In mo (seasons_arg months) -> no_gap mo d0 n).
Proof.
  intros HP Hz RR GS RS T RD HC AO MD.
  destruct RR as ((d & QD & EI & EO) & SS & NN). set (ms := seasons_arg months) in *.
  assert (X : q_months q' = Some ms /\ exists stats, q_casc q' = Some stats /\ length stats = length ms /\ forall k mo, nth_error ms k = Some mo ->
       exists sub ls arg, seasonal_subset (season_data k (combine (f_index d) (map (fun p => to_xr (snd p)) rows))) mo = Ok sub /\
         levels_of (np_percentile z) perc 5 sub ls /\ nth_error stats k = Some arg /\ is_season avg ls arg).
  { assert (EM : months = Some [] \/ months <> Some []) by (destruct months as [[|]|]; [left; reflexivity|right; discriminate..]). destruct EM as [->|NM].
    - injection RS as <-. split; [reflexivity|]. exists []. repeat split. intros k mo HK. destruct k; discriminate HK.
    - destruct (C89_precipitation cf mb fc lr pc e q q' months avg perc z HP NM RS) as (QM & (d' & obs & stats & QD' & EO' & QC & LS & _ & SE) & _).
      assert (d' = d) by congruence. subst d'. assert (obs = map (fun p => to_xr (snd p)) rows) by congruence. subst obs. split; [exact QM|]. exists stats. exact (conj QC (conj LS SE)). }
  destruct X as (QM & stats & QC & LS & SE).
  assert (ER : combine (f_index d) (map (fun p => to_xr (snd p)) rows) = amounts_series rows).
  { rewrite EI. unfold amounts_series. clear. induction rows as [|p rows IH]; [reflexivity|]. cbn. f_equal. exact IH. }
  split.
  - intros (st' & OK) mo HI a g b H1 H2 Sa Sb. apply In_nth_error in HI as (k & HK). destruct (GS mo (nth_error_In _ _ HK)) as [NE ND].
    destruct (in_dec Z.eq_dec (month_of_day g) (season_months mo)) as [Y|N]; [exact Y|exfalso].
    assert (KL : (k < length stats)%nat) by (rewrite LS; apply nth_error_Some; congruence).
    destruct (C80_season_with_gap e q' st d0 n dd amounts ms stats u shft master draws k mo a g b T RD HC QM QC HK KL NE ND H1 H2 Sa Sb N) as (x & EX).
    congruence.
  - intro NG. destruct (ready_column _ _ _ _ _ _ RD HC) as [DC L]. subst n.
    destruct (seasons_succeed e d0 amounts u shft draws AO (combine ms stats) 0 (fun _ => NaN)) as (g' & E).
    { intros mo arg HI. pose proof (in_combine_l _ _ _ _ HI) as HM. destruct (GS mo HM) as [NE ND]. split; [exact NE|]. split; [exact ND|]. split; [exact (NG mo HM)|].
      assert (X : exists k, nth_error ms k = Some mo /\ nth_error stats k = Some arg).
      { clear - HI. revert stats HI. induction ms as [|m l IH]; intros [|s ss] HI; cbn in HI; try contradiction. destruct HI as [HI|HI].
        - injection HI as -> ->. exists O. split; reflexivity.
        - destruct (IH ss HI) as (k & A & B). exists (S k). split; assumption. }
      destruct X as (k & HK & HA). destruct (SE k mo HK) as (sub & ls & arg' & E1 & LV & HA' & IS). assert (arg' = arg) by congruence. subst arg'.
      rewrite ER in E1. destruct (subset_season k rows mo SS NE ND) as (sub2 & E2 & EV). assert (sub2 = sub) by congruence. subst sub2.
      exact (calibrated_fine z perc avg sub _ ls arg draws Hz EV (season_nonneg k mo rows NN) LV IS MD). }
    destruct RD as (N0 & RD2 & RD3 & d2 & RD4 & RD5 & RD6).
    assert (RD : ready st d0 (length amounts) dd) by (split; [exact N0|]; split; [exact RD2|]; split; [exact RD3|]; exists d2; repeat split; assumption).
    assert (SC : st_cascade e q' st u shft draws = Ok (map (fun t => (t, g' t)) (hours_index d0 (length amounts)))).
    { unfold st_cascade. rewrite RD4, QM, QC, RD5. destruct (combine ms stats) as [|p r]; [exact E|]. rewrite DC. exact E. }
    unfold st_precipitation. cbn [String.eqb Ascii.eqb Bool.eqb]. rewrite SC. cbn [finish].
    destruct (put_series_ready st d0 (length amounts) dd "precip" (map (fun t => (t, g' t)) (hours_index d0 (length amounts))) RD) as (st' & P & _);
      [cbn; tauto|unfold index; rewrite map_map; apply map_id|]. exists st'. exact P.
Qed.
Print Assumptions C93_disaggregates.
(** without seasons: every amount of the record comes back as 24 non-negative amounts with that sum *)
Theorem C93_conserves cf mb fc lr pc e q rows avg perc z q' st d0 n dd amounts u master draws :
  pc perc = np_percentile z -> 0 <= z <= 100 -> rain_record q rows ->
  run_stat cf mb fc lr pc e q (QPrecip None avg perc) = (q', None) ->
  has_index_to_datetime e = false -> ready st d0 n dd -> has_column dd "precip" amounts -> Forall amount_ok amounts -> moderate_draws draws -> (2 <= n)%nat ->
  exists st', st_precipitation e q' st "cascade" u 0 master draws = (st', None) /\ ready st' d0 n dd /\
    forall i a, nth_error amounts i = Some a ->
      match a with
      | Fin r => exists hs, hourly_on st' "precip" (d0 + Z.of_nat i) = map Fin hs /\ length hs = 24%nat /\ Forall (fun h => 0 <= h)%R hs /\ Rsum hs = r
      | _ => hourly_on st' "precip" (d0 + Z.of_nat i) = repeat NaN 24
      end.
Proof.
  intros HP Hz RR RS T RD HC AO MD N2.
  assert (MD12 : forall d, season_day (Some all_months) d).
  { intro d. unfold season_day, season_months. pose proof (month_range d). remember (month_of_day d) as x. clear - H. cbv [In all_months map seq Z.of_nat Pos.of_succ_nat Pos.succ]. lia. }
  assert (GS : good_seasons one_season).
  { intros mo [<-|[]]. split; [discriminate|]. cbn. repeat constructor; cbn; lia. }
  destruct (proj2 (C93_disaggregates cf mb fc lr pc e q rows None avg perc z q' st d0 n dd amounts u 0 master draws HP Hz RR GS RS T RD HC AO MD)) as (st' & OK).
  { intros mo [<-|[]] a g b _ _ _ _. apply MD12. }
  exists st'. split; [exact OK|].
  destruct (C89_precipitation cf mb fc lr pc e q q' None avg perc z HP ltac:(discriminate) RS) as (QM & (d & obs & stats & QD & EO & QC & LS & _ & SE) & _).
  destruct (C81_cascade_conserves e q' st d0 n dd amounts (seasons_arg None) stats u master draws st' T RD HC AO QM QC GS OK) as (RD' & _ & C). split; [exact RD'|].
  intros i a Hi. apply (proj1 (C i a Hi)). exists O, (Some all_months). split; [reflexivity|]. split; [rewrite LS; cbn; lia|]. split; [apply MD12|].
  destruct (ready_column _ _ _ _ _ _ RD HC) as [_ L]. assert (i < length amounts)%nat by (apply nth_error_Some; congruence).
  destruct (Nat.eq_dec i 0) as [->|NZ]; [exists 1%nat|exists 0%nat]; (split; [lia|]; split; [lia|apply MD12]).
Qed.
Print Assumptions C93_conserves.

(** 64 hours of January 1970, hour 40 missing, rain every third hour; and the same without the last hour *)
Definition ex_rows (n : nat) : list (Z * amt) :=
  map (fun i => (Z.of_nat i * us_hour, if Nat.eqb i 40 then None else Some (INR (i mod 3)))) (seq 0 n).
Definition ex_rain (n : nat) : sstats := with_precip (new_stats None None None)
  (Some (Build_dframe (map fst (ex_rows n)) [("precip"%string, map (fun p => to_xr (snd p)) (ex_rows n))])) None None.
Lemma filter_all {A} (f : A -> bool) l : forallb f l = true -> filter f l = l.
Proof. induction l as [|a l IH]; [reflexivity|]. cbn. intro H. apply andb_true_iff in H as [-> H]. f_equal. apply IH, H. Qed.
Lemma ex_season n : (n <= 64)%nat -> season_amounts 0 (Some all_months) (ex_rows n) = map snd (ex_rows n).
Proof.
  intro Hn. unfold season_amounts. rewrite filter_all; [reflexivity|]. apply forallb_forall. intros p Hp. apply in_map_iff in Hp as (i & <- & Hi). cbn [fst].
  assert (G : forallb (fun i => mem (month_of (Z.of_nat i * us_hour)) (season_months (Some all_months))) (seq 0 64) = true) by (vm_compute; reflexivity).
  rewrite forallb_forall in G. apply G. apply in_seq in Hi. apply in_seq. lia.
Qed.
Lemma ex_rain_record n : rain_record (ex_rain n) (ex_rows n).
Proof.
  split; [eexists; repeat split|]. split.
  - unfold ex_rows. rewrite map_map. cbn [fst]. generalize 0%nat. induction n as [|n IH]; intro a; [constructor|]. cbn [seq map]. constructor; [apply IH|].
    apply Forall_forall. intros t Ht. apply in_map_iff in Ht as (i & <- & Hi). apply in_seq in Hi. unfold us_hour. lia.
  - apply Forall_forall. intros p Hp. apply in_map_iff in Hp as (i & <- & _). cbn [snd]. destruct (Nat.eqb i 40); [exact I|]. cbn. apply pos_INR.
Qed.
Lemma ex_nth n i : (i < n)%nat -> nth_error (map snd (ex_rows n)) i = Some (if Nat.eqb i 40 then None else Some (INR (i mod 3))).
Proof.
  intro H. unfold ex_rows. rewrite map_map. cbn [snd]. rewrite nth_error_map.
  assert (E : nth_error (seq 0 n) i = Some i). { rewrite (List.nth_error_nth' (seq 0 n) 0%nat) by (rewrite seq_length; exact H). rewrite seq_nth by exact H. reflexivity. }
  rewrite E. reflexivity.
Qed.
Example C93_met cf mb fc lr pc avg perc : pc perc = np_percentile 50 ->
  (exists q', run_stat cf mb fc lr pc modern (ex_rain 64) (QPrecip None avg perc) = (q', None)) /\
  (exists q', run_stat cf mb fc lr pc modern (ex_rain 63) (QPrecip None avg perc) = (q', Some IndexError)) /\
  moderate_draws (fun _ _ => Fin (1/2)).
Proof.
  intro HP. assert (GS : good_seasons (seasons_arg None)).
  { intros mo [<-|[]]. split; [discriminate|]. cbn. repeat constructor; cbn; lia. }
  split; [|split].
  - pose proof (C93_calibrates cf mb fc lr pc modern (ex_rain 64) (ex_rows 64) None avg perc 50 HP ltac:(lia) (ex_rain_record 64) GS) as C.
    destruct (run_stat _ _ _ _ _ _ _ _) as [q' err]. destruct C as [C _]. exists q'. f_equal. apply C.
    intros [|k] mo HK; [|destruct k; discriminate HK]. cbn [seasons_arg one_season nth_error] in HK. assert (EM : mo = Some all_months) by (injection HK as <-; reflexivity). subst mo.
    rewrite ex_season by lia. split; [unfold ex_rows; rewrite !map_length, seq_length; cbn; lia|].
    exists O. change (2 ^ 5)%nat with 32%nat. cbn [Nat.mul Nat.add]. rewrite ?Nat.mul_0_r. split.
    + intros i Hi. rewrite ex_nth by lia. destruct (Nat.eqb_spec i 40); [lia|]. eexists. reflexivity.
    + exists 1%nat, (INR 1). split; [lia|]. split; [reflexivity|]. cbn. lra.
  - pose proof (C93_calibrates cf mb fc lr pc modern (ex_rain 63) (ex_rows 63) None avg perc 50 HP ltac:(lia) (ex_rain_record 63) GS) as C.
    destruct (run_stat _ _ _ _ _ _ _ _) as [q' err]. destruct C as [C [->|D]]; [|exists q'; f_equal; exact D]. exfalso.
    pose proof (proj1 C eq_refl O (Some all_months) eq_refl) as [A _]. rewrite ex_season in A by lia. unfold ex_rows in A. rewrite !map_length, seq_length in A. cbn in A. lia.
  - intros k j. exists (1/2)%R. split; [reflexivity|]. assert (1 / 10 ^ 15 < 1 / 2)%R; [|lra]. unfold Rdiv. rewrite !Rmult_1_l. apply Rinv_lt_contravar; [|]; cbn; lra.
Qed.
