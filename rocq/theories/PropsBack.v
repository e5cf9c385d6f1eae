(** C108: computing the daily data back from the hourly frame of a station. *)
From Coq Require Import List String ZArith Bool Lia Reals Lra.
From Verif Require Import Py Num Cal Series Frame SpecBase SpecCascade PropsCascade SpecUtil SpecDaily TimeProofs IndexProofs DaysProofs UtilModel UtilModel2 UtilProofs CourseProofs PropsDaily
  WindModel HumModel TempModel RadModel PrecipModel SpecTemp SpecRad SpecSky TempProofs PropsTemp SpecHum HumProofs PropsHum
  StationModel SpecStation SpecOrder SpecBack StationProofs OrderProofs StationCascade PropsStation PropsStation2 PropsStation3 PropsStation6 PropsOrder.
Import ListNotations.
Local Open Scope string_scope.
Local Open Scope list_scope.
Local Open Scope Z_scope.

(** ** the aggregates of a day *)
Definition red (out : string) (l : list xr) : xr :=
  if String.eqb out "precip" then nansum l else if String.eqb out "ssd" then (nansum l / n_ofZ 60)%num
  else if String.eqb out "tmin" || String.eqb out "hum_min" then nanmin l
  else if String.eqb out "tmax" || String.eqb out "hum_max" then nanmax l else nanmean l.
Lemma frame_col st src : get_col src (hourly_frame st) =
  match s_disagg st with
  | Some d => match assoc src (f_cols d) with Some v => Some (combine (f_index d) v) | None => None end
  | None => None
  end.
Proof.
  unfold hourly_frame. destruct (s_disagg st) as [d|]; [|reflexivity]. induction (f_cols d) as [|[k v] l IH]; [reflexivity|].
  cbn [map get_col assoc fst snd]. destruct (String.eqb k src); [reflexivity|exact IH].
Qed.
Lemma back_on st out src day : daily_source out = Some src -> hourly_on st src day <> [] ->
  back st out day = Some (red out (hourly_on st src day)).
Proof.
  intros DS NE. unfold back. rewrite daily_col_eq, DS, frame_col. unfold hourly_on in NE |- *.
  destruct (s_disagg st) as [d|]; [|contradiction]. destruct (assoc src (f_cols d)) as [v|]; [|contradiction].
  set (s := combine (f_index d) v) in *. clearbody s.
  assert (exists t, In t (map fst s) /\ date_of t = day) as (t & IT & <-).
  { unfold values_on in NE. destruct (filter (fun p => fst p / us_day =? day) s) as [|p l] eqn:E; [contradiction|].
    assert (I : In p (filter (fun p => fst p / us_day =? day) s)) by (rewrite E; left; reflexivity).
    apply filter_In in I as [I K]. exists (fst p). split; [apply in_map; exact I|apply Z.eqb_eq; exact K]. }
  unfold midnight. rewrite entry_lookup.
  assert (D : forall agg : list xr -> xr, lookup (date_of t * us_day) (resample us_day agg s) = Some (agg (values_on (date_of t) s))) by (intro agg; apply resample_day, IT).
  unfold agg_of, red. destruct (String.eqb out "precip"); [apply D|].
  destruct (String.eqb out "ssd"); [rewrite ssd_lookup; unfold day_sum; rewrite D; reflexivity|].
  destruct (_ || _); [apply D|]. destruct (_ || _); apply D.
Qed.
Lemma run_same_inputs e q st o c d : s_disagg st = Some d -> s_sun st <> None -> fills o = Some c ->
  exists d', s_disagg (session e q st [o]) = Some d' /\ f_index d' = f_index d.
Proof.
  intros E S F. destruct (session_state e q [o] st d E S) as (d' & A & B & _); [|eauto].
  intros o' [<-|[]]. congruence.
Qed.
(** what a session leaves on a day is what the last successful call alone leaves *)
Lemma session_on e q st ops o c day : s_disagg st <> None -> s_sun st <> None -> last_call e q st ops o ->
  fills o = Some c -> c <> "hum" -> hourly_on (session e q st ops) c day = hourly_on (fst (run_data e q st o)) c day.
Proof.
  intros D S (A & OK & b & a & -> & L) F NH.
  pose proof (C98_last_call e q st b o a c D S A F NH OK) as H.
  assert (H' : hourly_column (session e q st (b ++ o :: a)) c = hourly_column (session e q st [o]) c).
  { apply H. intros o' I E. apply L; [exact I|congruence]. }
  clear H. destruct (s_disagg st) as [d|] eqn:E; [|congruence].
  destruct (session_state e q _ st d E S A) as (d1 & E1 & I1 & _).
  destruct (run_same_inputs e q st o c d E S F) as (d2 & E2 & I2).
  change (fst (run_data e q st o)) with (session e q st [o]).
  unfold hourly_on, hourly_column in *. rewrite E1, E2 in *. rewrite H', I1, I2. reflexivity.
Qed.
Lemma session_back e q st ops o c out day l : s_disagg st <> None -> s_sun st <> None -> last_call e q st ops o ->
  fills o = Some c -> c <> "hum" -> daily_source out = Some c -> hourly_on (fst (run_data e q st o)) c day = l -> l <> [] ->
  back (session e q st ops) out day = Some (red out l).
Proof.
  intros D S L F NH DS E NE. pose proof (session_on e q st ops o c day D S L F NH) as H. rewrite E in H.
  rewrite (back_on _ out c day DS) by (rewrite H; exact NE). rewrite H. reflexivity.
Qed.
Lemma ready_has st d0 n dd : ready st d0 n dd -> s_disagg st <> None.
Proof. intros (_ & _ & _ & d & -> & _). discriminate. Qed.
Lemma red_missing out n : red out (repeat NaN (S n)) = if daily_summed out then Fin 0 else NaN.
Proof.
  assert (V : valid (repeat NaN (S n)) = []) by (induction (S n) as [|m IH]; [reflexivity|exact IH]).
  unfold red, daily_summed. destruct (String.eqb out "precip"); [unfold nansum; rewrite V; reflexivity|].
  destruct (String.eqb out "ssd"); cbn [orb].
  { unfold nansum. rewrite V. cbn [fold_left]. change (n_ofZ 60) with (Fin 60). change n0 with (Fin 0). rewrite xdiv_Fin by lra. f_equal. lra. }
  destruct (_ || _); [unfold nanmin; rewrite V; reflexivity|]. destruct (_ || _); [unfold nanmax; rewrite V; reflexivity|].
  unfold nanmean. rewrite V. reflexivity.
Qed.
Lemma sum_back l : nansum (map Fin l) = Fin (Rsum l).
Proof. rewrite nansum_numeric by apply numeric_Fin. rewrite fins_Fin. reflexivity. Qed.
Lemma mean_back l : l <> [] -> nanmean (map Fin l) = Fin (Rmean l).
Proof. intro H. rewrite nanmean_numeric; rewrite ?fins_Fin; auto using numeric_Fin. Qed.
Lemma min_back l m : is_min l m -> nanmin (map Fin l) = Fin m.
Proof.
  intros [I B]. assert (NE : fins (map Fin l) <> []) by (rewrite fins_Fin; intros ->; destruct I).
  destruct (nanmin_numeric _ (numeric_Fin l) NE) as (lo & -> & Il & Bl). rewrite fins_Fin in *. f_equal.
  pose proof (B lo Il). pose proof (Bl m I). lra.
Qed.
Lemma max_back l m : is_max l m -> nanmax (map Fin l) = Fin m.
Proof.
  intros [I B]. assert (NE : fins (map Fin l) <> []) by (rewrite fins_Fin; intros ->; destruct I).
  destruct (nanmax_numeric _ (numeric_Fin l) NE) as (hi & -> & Ih & Bh). rewrite fins_Fin in *. f_equal.
  pose proof (B hi Ih). pose proof (Bh m I). lra.
Qed.

Lemma nth_hours {A} (g : nat -> A) n j d : (j < n)%nat -> nth j (map g (seq 0 n)) d = g j.
Proof. intro H. rewrite (nth_indep _ d (g 0%nat)) by (rewrite map_length, seq_length; exact H). rewrite (map_nth g), seq_nth by exact H. reflexivity. Qed.

(** ** precipitation: an amount comes back exactly; a day without observation comes back as dry (deviation) *)
Theorem C108_equal_precipitation : forall e q st d0 n dd amounts ops u shft master draws,
  ready st d0 n dd -> s_sun st <> None -> has_column dd "precip" amounts ->
  last_call e q st ops (DPrecip "equal" u shft master draws) -> comes_back (session e q st ops) d0 amounts.
Proof.
  intros e q st d0 n dd amounts ops u shft master draws RD S HC L i Hi.
  destruct (C85_precipitation_equal e q st d0 n dd amounts u shft master draws RD HC) as (st' & E & _ & _ & V).
  assert (Ei : nth_error amounts i = Some (nth i amounts NaN)) by (apply nth_error_nth'; exact Hi). specialize (V _ _ Ei).
  pose proof (session_back e q st ops _ "precip" "precip" (d0 + Z.of_nat i) (hourly_on st' "precip" (d0 + Z.of_nat i)) (ready_has _ _ _ _ RD) S L eq_refl ltac:(discriminate) eq_refl) as B.
  cbn [run_data] in B. rewrite E in B. specialize (B eq_refl).
  destruct (nth i amounts NaN) as [r| | |]; try exact I.
  - destruct V as [V SR]. rewrite V in B. rewrite B by discriminate. f_equal. unfold red. cbn [String.eqb Ascii.eqb Bool.eqb].
    change (repeat (Fin (r / 24)) 24) with (map Fin (repeat (r / 24)%R 24)). rewrite sum_back, SR. reflexivity.
  - rewrite V in B. rewrite B by discriminate. rewrite (red_missing "precip" 23). reflexivity.
Qed.
Print Assumptions C108_equal_precipitation.
Theorem C108_cascade_precipitation : forall e q st d0 n dd amounts months stats ops u master draws,
  has_index_to_datetime e = false -> ready st d0 n dd -> s_sun st <> None -> has_column dd "precip" amounts -> Forall amount_ok amounts ->
  q_months q = Some months -> q_casc q = Some stats -> (forall mo, In mo months -> season_months mo <> [] /\ NoDup (season_months mo)) ->
  last_call e q st ops (DPrecip "cascade" u 0 master draws) ->
  forall i, (i < n)%nat ->
    ((exists k mo, nth_error months k = Some mo /\ (k < List.length stats)%nat /\ season_day mo (d0 + Z.of_nat i) /\
        exists j, (j < n)%nat /\ j <> i /\ season_day mo (d0 + Z.of_nat j)) ->
     back (session e q st ops) "precip" (d0 + Z.of_nat i) = Some (match nth i amounts NaN with Fin r => Fin r | _ => Fin 0 end)) /\
    (~ (exists k mo, nth_error months k = Some mo /\ (k < List.length stats)%nat /\ season_day mo (d0 + Z.of_nat i) /\
          exists j, (j < n)%nat /\ j <> i /\ season_day mo (d0 + Z.of_nat j)) ->
     back (session e q st ops) "precip" (d0 + Z.of_nat i) = Some (Fin 0)).
Proof.
  intros e q st d0 n dd amounts months stats ops u master draws T RD S HC AO QM QC WF L i Hi.
  destruct (ready_column _ _ _ _ _ _ RD HC) as [_ LN].
  assert (Ei : nth_error amounts i = Some (nth i amounts NaN)) by (apply nth_error_nth'; lia).
  pose proof L as (_ & OK & _). unfold fails in OK. cbn [run_data] in OK.
  destruct (st_precipitation e q st "cascade" u 0 master draws) as [st' err] eqn:E. cbn [snd] in OK. subst err.
  destruct (C81_cascade_conserves e q st d0 n dd amounts months stats u master draws st' T RD HC AO QM QC WF E) as (_ & _ & V).
  destruct (V _ _ Ei) as [V1 V2]. clear V.
  pose proof (session_back e q st ops _ "precip" "precip" (d0 + Z.of_nat i) (hourly_on st' "precip" (d0 + Z.of_nat i)) (ready_has _ _ _ _ RD) S L eq_refl ltac:(discriminate) eq_refl) as B.
  cbn [run_data] in B. rewrite E in B. specialize (B eq_refl).
  split; intro H.
  - specialize (V1 H). destruct (nth i amounts NaN) as [r| | |]; try (rewrite V1 in B; rewrite B by discriminate; rewrite (red_missing "precip" 23); reflexivity).
    destruct V1 as (hs & V1 & LH & _ & SR). rewrite V1 in B. rewrite B by (destruct hs; discriminate).
    unfold red. cbn [String.eqb Ascii.eqb Bool.eqb]. rewrite sum_back, SR. reflexivity.
  - rewrite (V2 H) in B. rewrite B by discriminate. rewrite (red_missing "precip" 23). reflexivity.
Qed.
Print Assumptions C108_cascade_precipitation.

(** ** wind *)
Theorem C108_wind : forall e q st d0 n dd w ops draw, ready st d0 n dd -> s_sun st <> None -> has_column dd "wind" w ->
  (last_call e q st ops (DWind "equal" draw) -> forall i, (i < n)%nat ->
     match nth i w NaN with
     | Fin v => back (session e q st ops) "wind" (d0 + Z.of_nat i) = Some (Fin v)
     | NaN => back (session e q st ops) "wind" (d0 + Z.of_nat i) = Some NaN
     | _ => True
     end) /\
  (forall a b s, q_wind_a q = Some (Fin a) -> q_wind_b q = Some (Fin b) -> q_wind_shift q = Some (Fin s) ->
     last_call e q st ops (DWind "cosine" draw) -> forall i v, nth_error w i = Some (Fin v) ->
     back (session e q st ops) "wind" (d0 + Z.of_nat i) = Some (Fin (b * v))).
Proof.
  intros e q st d0 n dd w ops draw RD S HC. destruct (C85_wind e q st d0 n dd w draw RD HC) as [W1 W2]. split.
  - intros L i Hi. destruct W1 as (st' & E & _ & V). specialize (V i Hi).
    pose proof (session_back e q st ops _ "wind" "wind" (d0 + Z.of_nat i) (hourly_on st' "wind" (d0 + Z.of_nat i)) (ready_has _ _ _ _ RD) S L eq_refl ltac:(discriminate) eq_refl) as B.
    cbn [run_data] in B. rewrite E in B. specialize (B eq_refl). rewrite V in B.
    destruct (nth i w NaN) as [v| | |]; try exact I; rewrite B by discriminate.
    + unfold red. cbn [String.eqb Ascii.eqb Bool.eqb orb]. change (repeat (Fin v) 24) with (map Fin (repeat v 24)). rewrite mean_back by discriminate. do 2 f_equal. unfold Rmean, Rsum. cbn [repeat fold_right List.length]. rewrite INR_IZR_INZ. cbn [Z.of_nat Pos.of_succ_nat Pos.succ]. lra.
    + rewrite (red_missing "wind" 23). reflexivity.
  - intros a b s Ea Eb Es L i v Hi. destruct (W2 a b s Ea Eb Es) as (st' & E & _ & V). destruct (V i v Hi) as (x & V1 & LX & M & _).
    pose proof (session_back e q st ops _ "wind" "wind" (d0 + Z.of_nat i) (hourly_on st' "wind" (d0 + Z.of_nat i)) (ready_has _ _ _ _ RD) S L eq_refl ltac:(discriminate) eq_refl) as B.
    cbn [run_data] in B. rewrite E in B. specialize (B eq_refl). rewrite V1 in B. rewrite B by (destruct x; discriminate).
    unfold red. cbn [String.eqb Ascii.eqb Bool.eqb orb]. rewrite mean_back by (destruct x; discriminate). rewrite M. reflexivity.
Qed.
Print Assumptions C108_wind.

(** ** temperature *)
Lemma temp_call e q st d0 n dd m t nt out : ready st d0 n dd ->
  disaggregate_temperature e dd m t nt (q_delta q) (q_tcourse q) (s_sun st) = Ok out -> map fst out = hours_index d0 n ->
  forall day, hourly_on (fst (run_data e q st (DTemp m t nt))) "temp" day = values_on day out.
Proof.
  intros RD E IX day. cbn [run_data]. unfold st_temperature, daily_frame_temp. pose proof RD as (_ & -> & _). cbn [bind]. rewrite E. cbn [finish].
  destruct (put_series_ready st d0 n dd "temp" out RD) as (st' & -> & _ & _ & HO & _); [cbn; auto|exact IX|]. apply HO.
Qed.
Lemma temp_columns st d0 n dd tmin tmax temp : ready st d0 n dd -> has_column dd "tmin" tmin -> has_column dd "tmax" tmax -> has_column dd "temp" temp ->
  List.length temp = n /\ temp <> [] /\ temp_frame dd d0 tmin tmax temp.
Proof.
  intros RD C1 C2 C3. destruct (ready_column _ _ _ _ _ _ RD C3) as [_ L3]. destruct (ready_column _ _ _ _ _ _ RD C1) as [_ L1]. destruct (ready_column _ _ _ _ _ _ RD C2) as [_ L2].
  split; [exact L3|]. split; [destruct RD as (N0 & _); intros ->; apply N0; symmetry; exact L3|].
  destruct RD as (_ & _ & DI & _). unfold temp_frame. rewrite L3. repeat split; [exact DI|exact L1|exact L2|apply C1|apply C2|apply C3].
Qed.
(** the extremes come back from the course between minimum and maximum *)
Theorem C108_temperature_extremes : forall e q st d0 n dd tmin tmax temp ops t nt c f,
  ready st d0 n dd -> s_sun st <> None -> has_column dd "tmin" tmin -> has_column dd "tmax" tmax -> has_column dd "temp" temp ->
  q_tcourse q = Some c -> has_course c d0 n f ->
  last_call e q st ops (DTemp "mean_course_min_max" t nt) ->
  forall i lo hi, (i < n)%nat -> nth i tmin NaN = Fin lo -> nth i tmax NaN = Fin hi -> (lo <= hi)%R ->
    (let g := f (month_of_day (d0 + Z.of_nat i)) in
     (forall h, (h < 24)%nat -> (0 <= g h <= 1)%R) /\ (exists h, (h < 24)%nat /\ g h = 0%R) /\ (exists h, (h < 24)%nat /\ g h = 1%R)) ->
    back (session e q st ops) "tmin" (d0 + Z.of_nat i) = Some (Fin lo) /\
    back (session e q st ops) "tmax" (d0 + Z.of_nat i) = Some (Fin hi).
Proof.
  intros e q st d0 n dd tmin tmax temp ops t nt c f RD S C1 C2 C3 QC HF L i lo hi Hi E1 E2 LE HG.
  destruct (temp_columns st d0 n dd tmin tmax temp RD C1 C2 C3) as (L3 & NE & TF). rewrite <- L3 in HF, Hi.
  destruct (C37_min_max e dd d0 tmin tmax temp t nt (q_delta q) (s_sun st) c f NE TF HF) as (out & EO & EI & V).
  destruct (V i lo hi Hi E1 E2 LE HG) as (vals & EV & LV & MN & MX). rewrite L3 in EI.
  assert (EO' : disaggregate_temperature e dd "mean_course_min_max" t nt (q_delta q) (q_tcourse q) (s_sun st) = Ok out) by (rewrite QC; exact EO).
  pose proof (temp_call e q st d0 n dd _ t nt out RD EO' EI (d0 + Z.of_nat i)) as HO. rewrite EV in HO.
  assert (NV : map Fin vals <> []) by (destruct vals; discriminate).
  split.
  - rewrite (session_back e q st ops _ "temp" "tmin" _ _ (ready_has _ _ _ _ RD) S L eq_refl ltac:(discriminate) eq_refl HO NV).
    unfold red. cbn [String.eqb Ascii.eqb Bool.eqb orb]. rewrite (min_back vals lo MN). reflexivity.
  - rewrite (session_back e q st ops _ "temp" "tmax" _ _ (ready_has _ _ _ _ RD) S L eq_refl ltac:(discriminate) eq_refl HO NV).
    unfold red. cbn [String.eqb Ascii.eqb Bool.eqb orb]. rewrite (max_back vals hi MX). reflexivity.
Qed.
Print Assumptions C108_temperature_extremes.
(** the mean comes back from the methods that are built around it *)
Theorem C108_temperature_mean : forall e q st d0 n dd tmin tmax temp ops t nt,
  ready st d0 n dd -> s_sun st <> None -> has_column dd "tmin" tmin -> has_column dd "tmax" tmax -> has_column dd "temp" temp ->
  (exists c f, q_tcourse q = Some c /\ has_course c d0 n f /\ last_call e q st ops (DTemp "mean_course_mean" t nt)) \/
  (exists sun rise noon delta, s_sun st = Some sun /\ sun_days sun d0 rise noon /\ List.length rise = n /\ SpecTemp.usable t (q_delta q) delta /\
     last_call e q st ops (DTemp "sine_mean" t nt)) ->
  forall i lo hi m, (i < n)%nat -> nth i tmin NaN = Fin lo -> nth i tmax NaN = Fin hi -> nth i temp NaN = Fin m ->
    back (session e q st ops) "temp" (d0 + Z.of_nat i) = Some (Fin m).
Proof.
  intros e q st d0 n dd tmin tmax temp ops t nt RD S C1 C2 C3 W i lo hi m Hi E1 E2 E3.
  destruct (temp_columns st d0 n dd tmin tmax temp RD C1 C2 C3) as (L3 & NE & TF).
  assert (G : exists o vals, last_call e q st ops o /\ fills o = Some "temp" /\
    hourly_on (fst (run_data e q st o)) "temp" (d0 + Z.of_nat i) = map Fin vals /\ List.length vals = 24%nat /\ Rmean vals = m).
  { rewrite <- L3 in Hi. destruct W as [(c & f & QC & HF & L)|(sun & rise & noon & delta & ES & SD & LR & U & L)].
    - rewrite <- L3 in HF. destruct (C38_mean e dd d0 tmin tmax temp t nt (q_delta q) (s_sun st) c f NE TF HF) as (out & EO & EI & V).
      destruct (V i lo hi m Hi E1 E2 E3) as (vals & EV & LV & M & _). rewrite L3 in EI.
      assert (EO' : disaggregate_temperature e dd "mean_course_mean" t nt (q_delta q) (q_tcourse q) (s_sun st) = Ok out) by (rewrite QC; exact EO).
      eexists. exists vals. split; [exact L|]. split; [reflexivity|]. rewrite (temp_call e q st d0 n dd _ t nt out RD EO' EI). auto.
    - rewrite <- L3 in LR. destruct (C36_mean_and_range e dd d0 tmin tmax temp t nt (q_delta q) delta (q_tcourse q) sun rise noon NE TF SD LR U) as (out & EO & EI & V).
      destruct (V i lo hi m Hi E1 E2 E3) as (vals & EV & LV & M & _). rewrite L3 in EI.
      assert (EO' : disaggregate_temperature e dd "sine_mean" t nt (q_delta q) (q_tcourse q) (s_sun st) = Ok out) by (rewrite ES; exact EO).
      eexists. exists vals. split; [exact L|]. split; [reflexivity|]. rewrite (temp_call e q st d0 n dd _ t nt out RD EO' EI). auto. }
  destruct G as (o & vals & L & F & EV & LV & M).
  rewrite (session_back e q st ops o "temp" "temp" _ _ (ready_has _ _ _ _ RD) S L F ltac:(discriminate) eq_refl EV) by (destruct vals; discriminate).
  unfold red. cbn [String.eqb Ascii.eqb Bool.eqb orb]. rewrite mean_back by (destruct vals; discriminate). rewrite M. reflexivity.
Qed.
Print Assumptions C108_temperature_mean.

(** ** radiation: up to a hundredth of a W/m2, never more than the observation *)
Theorem C108_radiation : forall e q st d0 n dd gl lon lat tz ops,
  ready st d0 n dd -> placed st d0 n lon lat tz -> s_sun st <> None -> has_column dd "glob" gl ->
  last_call e q st ops (DRad "pot_rad" None) ->
  forall i g, nth_error gl i = Some (Fin g) -> (0 <= g)%R -> ordinary_day (d0 + Z.of_nat i) lon lat tz ->
    exists v, back (session e q st ops) "glob" (d0 + Z.of_nat i) = Some (Fin v) /\ (g - 1 / 100 < v <= g)%R.
Proof.
  intros e q st d0 n dd gl lon lat tz ops RD PL S HC L i g Hi Hg OD.
  destruct (C95_own_sky e q st d0 n dd gl lon lat tz RD PL HC) as (st' & E & _ & _ & V). destruct (V i g Hi Hg OD) as (vals & EV & SH).
  destruct SH as (LV & _ & B & _).
  assert (NV : vals <> []) by (intros ->; discriminate LV).
  exists (Rmean vals). split; [|exact B].
  assert (EV' : hourly_on (fst (run_data e q st (DRad "pot_rad" None))) "glob" (d0 + Z.of_nat i) = map Fin vals) by (cbn [run_data]; rewrite E; exact EV).
  rewrite (session_back e q st ops _ "glob" "glob" _ _ (ready_has _ _ _ _ RD) S L eq_refl ltac:(discriminate) eq_refl EV') by (destruct vals; [congruence|discriminate]).
  unfold red. cbn [String.eqb Ascii.eqb Bool.eqb orb]. rewrite mean_back by exact NV. reflexivity.
Qed.
Print Assumptions C108_radiation.

(** ** a variable that was never filled comes back as missing, precipitation as zero *)
Theorem C108_unfilled : forall e q st d0 n dd ops out c, ready st d0 n dd -> s_sun st <> None ->
  hourly_column st c = Some (map (fun _ => NaN) (hours_index d0 n)) ->
  (forall o, In o ops -> fills o <> None) -> c <> "hum" -> (forall o, In o ops -> fills o = Some c -> fails e q st o <> None) ->
  daily_source out = Some c ->
  forall i, (i < n)%nat -> back (session e q st ops) out (d0 + Z.of_nat i) = Some (if daily_summed out then Fin 0 else NaN).
Proof.
  intros e q st d0 n dd ops out c RD S EC A NH BAD DS i Hi.
  pose proof (C98_untouched e q st ops c (ready_has _ _ _ _ RD) S A NH BAD) as H. rewrite EC in H.
  destruct RD as (_ & _ & _ & d & ED & IX & _).
  destruct (session_state e q ops st d ED S A) as (d1 & E1 & I1 & _).
  assert (HO : hourly_on (session e q st ops) c (d0 + Z.of_nat i) = repeat NaN 24).
  { unfold hourly_column in H. unfold hourly_on. rewrite E1 in *. rewrite H, I1, IX, combine_map_id, values_on_map_hours by exact Hi. reflexivity. }
  rewrite (back_on _ out c _ DS) by (rewrite HO; discriminate). rewrite HO, (red_missing out 23). reflexivity.
Qed.
Print Assumptions C108_unfilled.

(** ** humidity: all four extremes come back from the course of the temperature *)
Theorem C108_humidity_extremes : forall e q st d0 n dd tmin tmax temp hmin hmax before after t nt c f,
  ready st d0 n dd -> s_sun st <> None ->
  has_column dd "tmin" tmin -> has_column dd "tmax" tmax -> has_column dd "temp" temp -> has_column dd "hum_min" hmin -> has_column dd "hum_max" hmax ->
  q_tcourse q = Some c -> has_course c d0 n f ->
  last_call e q st before (DTemp "mean_course_min_max" t nt) ->
  (forall o, In o after -> fills o <> None /\ fills o <> Some "hum") ->
  forall i lo hi a b, (i < n)%nat -> nth i tmin NaN = Fin lo -> nth i tmax NaN = Fin hi -> (lo < hi)%R ->
    (let g := f (month_of_day (d0 + Z.of_nat i)) in
     (forall h, (h < 24)%nat -> (0 <= g h <= 1)%R) /\ (exists h, (h < 24)%nat /\ g h = 0%R) /\ (exists h, (h < 24)%nat /\ g h = 1%R)) ->
    nth i hmin NaN = Fin a -> nth i hmax NaN = Fin b -> (0 <= a <= b)%R -> (b <= 100)%R ->
    let st' := session e q st (before ++ DHum "min_max" false :: after) in
    back st' "hum_min" (d0 + Z.of_nat i) = Some (Fin a) /\ back st' "hum_max" (d0 + Z.of_nat i) = Some (Fin b).
Proof.
  intros e q st d0 n dd tmin tmax temp hmin hmax before after t nt c f RD S C1 C2 C3 H1 H2 QC HF L HA i lo hi a b Hi E1 E2 LT HG E3 E4 AB B100 st'.
  destruct (temp_columns st d0 n dd tmin tmax temp RD C1 C2 C3) as (L3 & NE & TF).
  pose proof HF as HF'. rewrite <- L3 in HF'.
  destruct (C37_min_max e dd d0 tmin tmax temp t nt (q_delta q) (s_sun st) c f NE TF HF') as (out & EO & EI & V).
  destruct (V i lo hi ltac:(lia) E1 E2 ltac:(lra) HG) as (vals & EV & LV & MN & MX). rewrite L3 in EI. clear V HF'.
  assert (EO' : disaggregate_temperature e dd "mean_course_min_max" t nt (q_delta q) (q_tcourse q) (s_sun st) = Ok out) by (rewrite QC; exact EO).
  (* the temperature of the station before the call *)
  pose proof L as (AB0 & OK & b1 & b2 & EB & LB).
  assert (HT : hourly_column (session e q st before) "temp" = Some (values out)).
  { rewrite EB. rewrite (C98_last_call e q st b1 (DTemp "mean_course_min_max" t nt) b2 "temp" (ready_has _ _ _ _ RD) S); [|rewrite <- EB; exact AB0|reflexivity|discriminate|exact OK|intros o' I F; apply LB; [exact I|exact F]].
    change (session e q st [DTemp "mean_course_min_max" t nt]) with (fst (run_data e q st (DTemp "mean_course_min_max" t nt))).
    cbn [run_data]. unfold st_temperature, daily_frame_temp. pose proof RD as (_ & -> & _). cbn [bind]. rewrite EO'. cbn [finish].
    destruct (put_series_ready st d0 n dd "temp" out RD) as (s2 & -> & _ & HC & _); [cbn; auto|exact EI|]. exact HC. }
  pose proof RD as (N0 & SDD & DI & d & ED & IX & NM).
  destruct (session_state e q before st d ED S AB0) as (d1 & D1 & I1 & M1 & SI & _).
  set (st1 := session e q st before) in *.
  assert (SD1 : s_daily st1 = Some dd) by (destruct SI as (_ & _ & _ & -> & _); exact SDD).
  assert (S1 : s_sun st1 <> None) by (destruct SI as (_ & _ & _ & _ & -> & _); exact S).
  assert (RD1 : ready st1 d0 n dd).
  { split; [exact N0|]. split; [exact SD1|]. split; [exact DI|]. exists d1. split; [exact D1|]. split; congruence. }
  set (f1 := fun u => match lookup u out with Some v => v | None => NaN end).
  assert (EF : out = map (fun u => (u, f1 u)) (hours_index d0 n)) by (apply series_as_map; [exact EI|apply hours_nodup]).
  assert (DF : day_frame dd d0 n) by (split; assumption).
  destruct (C47_min_max e dd d0 n hmin hmax tmin tmax f1 (q_a0 q) (q_a1 q) (q_kr q) (q_mhp q) DF H1 H2 C1 C2) as (hum & EH & EHI & V).
  rewrite <- EF in EH.
  destruct (put_series_ready st1 d0 n dd "hum" hum RD1) as (st2 & P2 & RD2 & HC2 & HO2 & _); [cbn; auto|exact EHI|].
  assert (R2 : run_data e q st1 (DHum "min_max" false) = (st2, None)).
  { cbn [run_data]. unfold st_humidity, daily_frame. rewrite SD1. cbn [bind]. rewrite D1. unfold fcol. unfold hourly_column in HT. rewrite D1 in HT. rewrite HT. cbn [bind].
    assert (EC : combine (f_index d1) (values out) = out) by (rewrite I1, IX, <- EI; apply combine_parts). rewrite EC.
    change (@Some (series xr)) with (@Some (list (Z * xr))). rewrite EH. exact P2. }
  (* the calls after it *)
  assert (HOS : hourly_on st' "hum" (d0 + Z.of_nat i) = values_on (d0 + Z.of_nat i) hum).
  { rewrite <- HO2. unfold st'. rewrite session_split. fold st1.
    change (session e q st1 (DHum "min_max" false :: after)) with (session e q (fst (run_data e q st1 (DHum "min_max" false))) after).
    rewrite R2. cbn [fst]. pose proof RD2 as (_ & _ & _ & d2 & D2 & I2 & _).
    assert (S2 : s_sun st2 <> None).
    { unfold put_series in P2. rewrite D1 in P2. destruct (same_labels _ _); [|destruct (has_dup _)]; apply (f_equal fst) in P2; cbn [fst] in P2; rewrite <- P2; exact S1. }
    destruct (session_state e q after st2 d2 D2 S2) as (d3 & D3 & I3 & _ & _ & K3); [intros o I; apply HA, I|].
    unfold hourly_on. rewrite D3, D2, I3, K3 by (intros o I; apply HA, I). reflexivity. }
  specialize (V i lo hi a b Hi E1 E2 E3 E4 LT AB B100). cbv zeta in V. destruct V as (V1 & V2 & V3 & _).
  rewrite EF, values_on_map_hours in EV by exact Hi.
  assert (TV : forall h, (h < 24)%nat -> f1 (stamp (d0 + Z.of_nat i) h) = Fin (nth h vals 0%R)).
  { intros h Hh. apply (f_equal (fun l => nth h l NaN)) in EV. rewrite nth_hours in EV by exact Hh. rewrite EV.
    rewrite (nth_indep (map Fin vals) NaN (Fin 0)) by (rewrite map_length; lia). apply (map_nth Fin). }
  assert (BT : forall h, (h < 24)%nat -> (lo <= nth h vals 0 <= hi)%R).
  { intros h Hh. assert (I : In (nth h vals 0%R) vals) by (apply nth_In; lia). split; [apply MN, I|apply MX, I]. }
  set (day := values_on (d0 + Z.of_nat i) hum) in *.
  assert (LD : List.length day = 24%nat).
  { unfold day. rewrite (series_as_map hum _ EHI (hours_nodup d0 n)), values_on_map_hours by exact Hi. rewrite map_length, seq_length. reflexivity. }
  assert (DV : exists vs, day = map Fin vs /\ List.length vs = 24%nat /\ forall h, (h < 24)%nat -> (a <= nth h vs 0 <= b)%R /\ nth h day NaN = Fin (nth h vs 0%R)).
  { exists (map (fun x => match x with Fin r => r | _ => 0%R end) day).
    assert (DH : forall h, (h < 24)%nat -> exists v, nth h day NaN = Fin v /\ (a <= v <= b)%R).
    { intros h Hh. destruct (V3 h _ Hh (TV h Hh) (BT h Hh)) as (v & A & B & _). exists v. auto. }
    assert (FR : forall h, nth h (map (fun x => match x with Fin r => r | _ => 0%R end) day) 0%R = match nth h day NaN with Fin r => r | _ => 0%R end).
    { intro h. exact (map_nth (fun x => match x with Fin r => r | _ => 0%R end) day NaN h). }
    split; [|split; [rewrite map_length; exact LD|]].
    - apply nth_ext with (d := NaN) (d' := Fin 0); [rewrite !map_length; reflexivity|]. intros h Hh. rewrite LD in Hh. rewrite (map_nth Fin).
      rewrite (FR h).
      destruct (DH h Hh) as (v & -> & _). reflexivity.
    - intros h Hh. rewrite (FR h).
      destruct (DH h Hh) as (v & -> & B). auto. }
  destruct DV as (vs & EVS & LVS & BV).
  assert (NV : day <> []) by (intro K; rewrite K in LD; discriminate).
  assert (MIN : is_min vs a /\ is_max vs b).
  { destruct MN as [IL _], MX as [IH _]. apply (In_nth _ _ 0%R) in IL as (hl & HL & EL). apply (In_nth _ _ 0%R) in IH as (hh & HHh & EHh).
    rewrite LV in HL, HHh. pose proof (V1 hl HL ltac:(rewrite TV, EL by exact HL; reflexivity)) as Q1. pose proof (V2 hh HHh ltac:(rewrite TV, EHh by exact HHh; reflexivity)) as Q2.
    destruct (BV hl HL) as [_ W1]. destruct (BV hh HHh) as [_ W2]. rewrite Q1 in W1. rewrite Q2 in W2. injection W1 as W1. injection W2 as W2.
    split; (split; [|intros x I; apply (In_nth _ _ 0%R) in I as (k & Hk & <-); rewrite LVS in Hk; apply (proj1 (BV k Hk))]).
    - rewrite W2. apply nth_In. lia.
    - rewrite W1. apply nth_In. lia. }
  split.
  - rewrite (back_on st' "hum_min" "hum" _ eq_refl) by (rewrite HOS; exact NV). rewrite HOS, EVS. unfold red. cbn [String.eqb Ascii.eqb Bool.eqb orb]. rewrite (min_back vs a (proj1 MIN)). reflexivity.
  - rewrite (back_on st' "hum_max" "hum" _ eq_refl) by (rewrite HOS; exact NV). rewrite HOS, EVS. unfold red. cbn [String.eqb Ascii.eqb Bool.eqb orb]. rewrite (max_back vs b (proj2 MIN)). reflexivity.
Qed.
Print Assumptions C108_humidity_extremes.

(** ** a session with every variable *)
Definition bk_day : dframe xr :=
  Build_dframe (daily_index 0 1) [("tmin", [Fin 280]); ("tmax", [Fin 290]); ("temp", [Fin 284]); ("wind", [Fin 3]); ("precip", [Fin 5]);
    ("glob", [Fin 200]); ("hum_min", [Fin 40]); ("hum_max", [Fin 90])].
Definition bk_station : station :=
  {| s_lon := Some (Fin 0); s_lat := Some (Fin 0); s_tz := Some (Fin 0); s_stats := O; s_daily := Some bk_day;
     s_disagg := Some (empty_hourly (hours_index 0 1)); s_sun := Some eq_sun |}.
Definition bk_stats : sstats := with_temp eq_stats None (Some [(1, hour_column (fun h => (INR h / 23)%R))]).
Definition bk_rain : data_op := DPrecip "equal" false 0 None (fun _ _ => NaN).
Definition bk_temp : data_op := DTemp "mean_course_min_max" "fix" false.
Definition bk_before : list data_op := [DWind "equal" (fun _ => NaN); DRad "pot_rad" None; bk_temp; bk_rain].
Definition bk_after : list data_op := [DWind "no such method" (fun _ => NaN)].
Lemma bk_ready : ready bk_station 0 1 bk_day.
Proof. split; [discriminate|]. split; [reflexivity|]. split; [reflexivity|]. eexists. split; [reflexivity|]. split; reflexivity. Qed.
Lemma bk_course : has_course [(1, hour_column (fun h => (INR h / 23)%R))] 0 1 (fun _ h => (INR h / 23)%R).
Proof. intros i Hi. assert (i = 0%nat) as -> by lia. reflexivity. Qed.
Lemma bk_unit : let g := fun h => (INR h / 23)%R in
  (forall h, (h < 24)%nat -> (0 <= g h <= 1)%R) /\ (exists h, (h < 24)%nat /\ g h = 0%R) /\ (exists h, (h < 24)%nat /\ g h = 1%R).
Proof.
  cbv zeta. split; [|split].
  - intros h Hh. pose proof (pos_INR h). assert (INR h <= INR 23)%R by (apply le_INR; lia). rewrite (INR_IZR_INZ 23) in H0. cbn [Z.of_nat Pos.of_succ_nat Pos.succ] in H0. lra.
  - exists 0%nat. split; [lia|]. cbn [INR]. lra.
  - exists 23%nat. split; [lia|]. rewrite INR_IZR_INZ. cbn [Z.of_nat Pos.of_succ_nat Pos.succ]. lra.
Qed.
Lemma bk_fills : forall o, In o (bk_before ++ DHum "min_max" false :: bk_after) -> fills o <> None.
Proof. intros o H. cbn [bk_before bk_after app In] in H. repeat (destruct H as [<-|H]; [discriminate|]). destruct H. Qed.
Lemma bk_temp_ok : fails modern bk_stats bk_station bk_temp = None.
Proof.
  destruct (temp_columns bk_station 0 1 bk_day [Fin 280] [Fin 290] [Fin 284] bk_ready ltac:(split; reflexivity) ltac:(split; reflexivity) ltac:(split; reflexivity)) as (_ & NE & TF).
  destruct (C37_min_max modern bk_day 0 [Fin 280] [Fin 290] [Fin 284] "fix" false None (Some eq_sun) [(1, hour_column (fun h => (INR h / 23)%R))] _ NE TF bk_course) as (out & EO & EI & _).
  unfold fails, bk_temp. cbn [run_data]. unfold st_temperature. change (daily_frame_temp bk_station _) with (@Ok (dframe xr) bk_day). cbn [bind].
  assert (EO' : disaggregate_temperature modern bk_day "mean_course_min_max" "fix" false (q_delta bk_stats) (q_tcourse bk_stats) (s_sun bk_station) = Ok out) by exact EO.
  rewrite EO'. cbn [finish]. destruct (put_series_ready bk_station 0 1 bk_day "temp" out bk_ready) as (st' & -> & _); [cbn; auto|exact EI|]. reflexivity.
Qed.
Example C108_met : let st := session modern bk_stats bk_station (bk_before ++ DHum "min_max" false :: bk_after) in
  back st "wind" 0 = Some (Fin 3) /\ back st "precip" 0 = Some (Fin 5) /\
  back st "tmin" 0 = Some (Fin 280) /\ back st "tmax" 0 = Some (Fin 290) /\
  back st "hum_min" 0 = Some (Fin 40) /\ back st "hum_max" 0 = Some (Fin 90) /\
  exists v, back st "glob" 0 = Some (Fin v) /\ (200 - 1 / 100 < v <= 200)%R.
Proof.
  cbv zeta. set (ops := bk_before ++ DHum "min_max" false :: bk_after). pose proof bk_ready as RD.
  assert (S : s_sun bk_station <> None) by discriminate.
  assert (LW : last_call modern bk_stats bk_station ops (DWind "equal" (fun _ => NaN))).
  { split; [exact bk_fills|]. split; [reflexivity|]. exists [], (tl ops). split; [reflexivity|]. intros o H F.
    cbn [ops bk_before bk_after app tl In] in H. repeat (destruct H as [<-|H]; [discriminate F || (unfold fails; cbn; discriminate)|]). destruct H. }
  assert (LP : last_call modern bk_stats bk_station ops bk_rain).
  { split; [exact bk_fills|]. split; [|exists (firstn 3 ops), (skipn 4 ops); split; [reflexivity|]; intros o H F; cbn [ops bk_before bk_after app skipn In] in H; repeat (destruct H as [<-|H]; [discriminate F|]); destruct H].
    unfold fails, bk_rain. cbn [run_data]. destruct (C85_precipitation_equal modern bk_stats bk_station 0 1 bk_day [Fin 5] false 0 None (fun _ _ => NaN) RD ltac:(split; reflexivity)) as (st' & -> & _). reflexivity. }
  assert (LT : last_call modern bk_stats bk_station ops bk_temp).
  { split; [exact bk_fills|]. split; [exact bk_temp_ok|]. exists (firstn 2 ops), (skipn 3 ops). split; [reflexivity|]. intros o H F. cbn [ops bk_before bk_after app skipn In] in H; repeat (destruct H as [<-|H]; [discriminate F|]); destruct H. }
  assert (LT' : last_call modern bk_stats bk_station bk_before bk_temp).
  { split; [intros o H; apply bk_fills, in_or_app; left; exact H|]. split; [exact bk_temp_ok|]. exists (firstn 2 bk_before), (skipn 3 bk_before). split; [reflexivity|]. intros o H F. cbn [bk_before skipn In] in H; repeat (destruct H as [<-|H]; [discriminate F|]); destruct H. }
  assert (PL : placed bk_station 0 1 0 0 0) by (repeat split; right; reflexivity).
  assert (LR : last_call modern bk_stats bk_station ops (DRad "pot_rad" None)).
  { split; [exact bk_fills|]. split; [|exists (firstn 1 ops), (skipn 2 ops); split; [reflexivity|]; intros o H F; cbn [ops bk_before bk_after app skipn In] in H; repeat (destruct H as [<-|H]; [discriminate F|]); destruct H].
    unfold fails. cbn [run_data]. destruct (C95_own_sky modern bk_stats bk_station 0 1 bk_day [Fin 200] 0 0 0 RD PL ltac:(split; reflexivity)) as (st' & -> & _). reflexivity. }
  split; [|split; [|split; [|split; [|split; [|split]]]]].
  - exact (proj1 (C108_wind modern bk_stats bk_station 0 1 bk_day [Fin 3] ops (fun _ => NaN) RD S ltac:(split; reflexivity)) LW 0%nat ltac:(lia)).
  - exact (C108_equal_precipitation modern bk_stats bk_station 0 1 bk_day [Fin 5] ops _ _ _ _ RD S ltac:(split; reflexivity) LP 0%nat ltac:(cbn; lia)).
  - apply (C108_temperature_extremes modern bk_stats bk_station 0 1 bk_day [Fin 280] [Fin 290] [Fin 284] ops "fix" false _ _ RD S ltac:(split; reflexivity) ltac:(split; reflexivity) ltac:(split; reflexivity) eq_refl bk_course LT 0%nat 280%R 290%R); try reflexivity; try lra; [lia|exact bk_unit].
  - apply (C108_temperature_extremes modern bk_stats bk_station 0 1 bk_day [Fin 280] [Fin 290] [Fin 284] ops "fix" false _ _ RD S ltac:(split; reflexivity) ltac:(split; reflexivity) ltac:(split; reflexivity) eq_refl bk_course LT 0%nat 280%R 290%R); try reflexivity; try lra; [lia|exact bk_unit].
  - apply (C108_humidity_extremes modern bk_stats bk_station 0 1 bk_day [Fin 280] [Fin 290] [Fin 284] [Fin 40] [Fin 90] bk_before bk_after "fix" false _ _ RD S ltac:(split; reflexivity) ltac:(split; reflexivity) ltac:(split; reflexivity) ltac:(split; reflexivity) ltac:(split; reflexivity) eq_refl bk_course LT') with (i := 0%nat) (lo := 280%R) (hi := 290%R) (a := 40%R) (b := 90%R); try reflexivity; try lra; [intros o [<-|[]]; split; discriminate|lia|exact bk_unit].
  - apply (C108_humidity_extremes modern bk_stats bk_station 0 1 bk_day [Fin 280] [Fin 290] [Fin 284] [Fin 40] [Fin 90] bk_before bk_after "fix" false _ _ RD S ltac:(split; reflexivity) ltac:(split; reflexivity) ltac:(split; reflexivity) ltac:(split; reflexivity) ltac:(split; reflexivity) eq_refl bk_course LT') with (i := 0%nat) (lo := 280%R) (hi := 290%R) (a := 40%R) (b := 90%R); try reflexivity; try lra; [intros o [<-|[]]; split; discriminate|lia|exact bk_unit].
  - apply (C108_radiation modern bk_stats bk_station 0 1 bk_day [Fin 200] 0 0 0 ops RD PL S ltac:(split; reflexivity) LR 0%nat 200%R eq_refl ltac:(lra) equator_day).
Qed.
(** the mean, with the sine around it *)
Example C108_mean_met : exists rise noon, sun_days eq_sun 0 [rise] [noon] /\
  last_call modern bk_stats bk_station [DTemp "sine_mean" "fix" false] (DTemp "sine_mean" "fix" false) /\
  back (session modern bk_stats bk_station [DTemp "sine_mean" "fix" false]) "temp" 0 = Some (Fin 284).
Proof.
  destruct eq_sun_days as (rise & noon & SD). exists rise, noon. split; [exact SD|].
  destruct (temp_columns bk_station 0 1 bk_day [Fin 280] [Fin 290] [Fin 284] bk_ready ltac:(split; reflexivity) ltac:(split; reflexivity) ltac:(split; reflexivity)) as (_ & NE & TF).
  assert (L : last_call modern bk_stats bk_station [DTemp "sine_mean" "fix" false] (DTemp "sine_mean" "fix" false)).
  { split; [intros o [<-|[]]; discriminate|]. split; [|exists [], []; split; [reflexivity|intros o []]].
    destruct (C36_mean_and_range modern bk_day 0 [Fin 280] [Fin 290] [Fin 284] "fix" false None (fun _ => 0%R) (q_tcourse bk_stats) eq_sun [rise] [noon] NE TF SD eq_refl ltac:(left; reflexivity)) as (out & EO & EI & _).
    unfold fails. cbn [run_data]. unfold st_temperature. change (daily_frame_temp bk_station _) with (@Ok (dframe xr) bk_day). cbn [bind].
    assert (EO' : disaggregate_temperature modern bk_day "sine_mean" "fix" false (q_delta bk_stats) (q_tcourse bk_stats) (s_sun bk_station) = Ok out) by exact EO.
    rewrite EO'. cbn [finish]. destruct (put_series_ready bk_station 0 1 bk_day "temp" out bk_ready) as (st' & -> & _); [cbn; auto|exact EI|]. reflexivity. }
  split; [exact L|].
  apply (C108_temperature_mean modern bk_stats bk_station 0 1 bk_day [Fin 280] [Fin 290] [Fin 284] _ "fix" false bk_ready ltac:(discriminate) ltac:(split; reflexivity) ltac:(split; reflexivity) ltac:(split; reflexivity)) with (i := 0%nat) (lo := 280%R) (hi := 290%R); try reflexivity; [|lia].
  right. exists eq_sun, [rise], [noon], (fun _ => 0%R). split; [reflexivity|]. split; [exact SD|]. split; [reflexivity|]. split; [left; reflexivity|exact L].
Qed.
(** the cascade *)
Example C108_cascade_met : let st := with_sun ex_ready (Some []) in
  ready st 0 4 ex_day /\ last_call modern ex_seasons st [DPrecip "cascade" false 0 None (fun _ => ex_draws)] (DPrecip "cascade" false 0 None (fun _ => ex_draws)).
Proof.
  cbv zeta. split; [exact (proj1 C85_met)|]. split; [intros o [<-|[]]; discriminate|]. split; [|exists [], []; split; [reflexivity|intros o []]].
  destruct C81_met as (st' & E). unfold fails. cbn [run_data]. unfold st_precipitation in *. cbn [String.eqb Ascii.eqb Bool.eqb] in *.
  change (st_cascade modern ex_seasons (with_sun ex_ready (Some [])) false 0 (fun _ => ex_draws)) with (st_cascade modern ex_seasons ex_ready false 0 (fun _ => ex_draws)).
  destruct (st_cascade modern ex_seasons ex_ready false 0 (fun _ => ex_draws)) as [o2|x]; cbn [finish] in *; [|discriminate E].
  unfold put_series in *. cbn [ex_ready with_sun s_disagg] in *. destruct (same_labels _ _); [reflexivity|]. destruct (has_dup _); [discriminate E|reflexivity].
Qed.
