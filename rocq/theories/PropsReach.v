(** Property C116: what holds of the daily and the hourly frame of every station of every program. *)
From Coq Require Import String ZArith List Bool Reals Sorted Lia Lra.
From Verif Require Import Py Num Cal Series Frame SpecBase TimeProofs IndexProofs DaysProofs InterpProofs AggModel BuildProofs UtilModel
  TempModel HumModel HumProofs StationModel SpecStation StationProofs StationDaily PropsStation PropsStation2.
Import ListNotations.
Open Scope Z_scope.

(** the data frames a program assigns are data frames as pandas allows them *)
Definition value_ok (v : pyval) : Prop := match v with VFrame f => SpecStation.frame_ok f | VOther => True end.
Definition op_ok (o : op) : Prop :=
  match o with
  | NewStation _ _ _ (Some v) => value_ok v
  | OnData _ (DDaily v) => value_ok v
  | _ => True
  end.
(** the five hourly columns, each as long as the index *)
Definition hourly_shape (d : dframe xr) : Prop :=
  map fst (f_cols d) = hourly_names /\ forall c v, In (c, v) (f_cols d) -> length v = length (f_index d).
(** no day missing between two days *)
Definition unbroken (ds : list Z) : Prop := forall g x y, In x ds -> In y ds -> x < g < y -> In g ds.
(** what is true of every station *)
Definition consistent (e : env) (st : station) : Prop :=
  (s_daily st = None -> s_disagg st = None) /\
  (forall d, s_disagg st = Some d -> hourly_shape d) /\
  (forall df, s_daily st = Some df ->
     (forall c v x, In c ["tmin"; "tmax"; "tmean"]%string -> assoc c (f_cols df) = Some v -> In x v -> ~ cold x) /\
     exists ds, StronglySorted Z.lt ds /\ f_index df = map midnight ds /\
       (forall c v, In (c, v) (f_cols df) -> length v = length ds) /\
       (ds <> [] -> has_index_to_datetime e = true \/ unbroken ds -> exists d, s_disagg st = Some d /\ f_index d = days_hours ds)).

(** ** One call *)
Definition frames_equal (a b : station) : Prop := s_daily a = s_daily b /\ s_disagg a = s_disagg b.
Lemma consistent_frames e a b : frames_equal a b -> consistent e b -> consistent e a.
Proof. intros [E1 E2] (A & B & C). unfold consistent. rewrite E1, E2. exact (conj A (conj B C)). Qed.

Lemma put_shape name vals d : In name hourly_names -> hourly_shape d -> length vals = length (f_index d) -> hourly_shape (put_column name vals d).
Proof.
  intros IN [N L] V. split; [rewrite (proj1 (proj2 (put_column_ok name vals d))); exact N|].
  intros c v I. cbn [put_column f_cols f_index] in *. apply in_map_iff in I as ((c' & v') & E & I). cbn [fst] in E.
  destruct (String.eqb c' name); [injection E as <- <-; exact V|]. injection E as <- <-. exact (L c' v' I).
Qed.
(** a column was replaced *)
Lemma put_consistent e st d name vals : In name hourly_names -> consistent e st -> s_disagg st = Some d -> length vals = length (f_index d) ->
  consistent e (with_disagg st (Some (put_column name vals d))).
Proof.
  intros IN (A & B & C) D L. split; [cbn; intro X; rewrite (A X) in D; discriminate|]. split.
  - cbn. intros d' X. injection X as <-. apply put_shape; [exact IN|exact (B d D)|exact L].
  - cbn. intros df X. destruct (C df X) as [C1 (ds & C2 & C3 & C4 & C5)]. split; [exact C1|]. exists ds. split; [exact C2|]. split; [exact C3|]. split; [exact C4|].
    intros NE H. destruct (C5 NE H) as (d0 & E & I). rewrite D in E. injection E as <-. exists (put_column name vals d). split; [reflexivity|exact I].
Qed.
Lemma put_series_consistent e name s st : In name hourly_names -> consistent e st -> consistent e (fst (put_series name s st)).
Proof.
  intros IN C. unfold put_series. destruct (s_disagg st) as [d|] eqn:D; [|exact C].
  destruct (same_labels (index s) (f_index d)) eqn:S.
  - apply same_labels_true in S. apply put_consistent; try assumption. rewrite <- S. unfold values, index. rewrite !map_length. reflexivity.
  - destruct (has_dup (index s)); [exact C|]. apply put_consistent; try assumption. unfold align. apply map_length.
Qed.
Lemma put_array_consistent e name l st : In name hourly_names -> consistent e st -> consistent e (fst (put_array name l st)).
Proof.
  intros IN C. unfold put_array. destruct (s_disagg st) as [d|] eqn:D; [|exact C].
  destruct (Nat.eqb_spec (length l) (length (f_index d))) as [L|]; [|exact C]. apply put_consistent; assumption.
Qed.
Lemma finish_consistent e name r st : In name hourly_names -> consistent e st -> consistent e (fst (finish name r st)).
Proof. intros IN C. destruct r as [s|x]; [apply put_series_consistent; assumption|exact C]. Qed.

Lemma stored_rows f df : SpecStation.frame_ok f -> p_datetime f = true -> day_resolution (f_index (p_data f)) = true -> is_increasing (f_index (p_data f)) = true ->
  fill_days f = Ok df ->
  exists ds, StronglySorted Z.lt ds /\ f_index df = map midnight ds /\ forall c v, In (c, v) (f_cols df) -> length v = length ds.
Proof.
  intros [FL FS] P R I F. destruct (p_freq f) eqn:PF.
  - unfold fill_days in F. rewrite PF in F. assert (E : df = p_data f) by congruence. rewrite E. exists (map date_of (f_index (p_data f))). split; [|split].
    + apply sorted_dates; [exact R|]. apply FS; [reflexivity|exact I].
    + symmetry. apply resolution_midnight, R.
    + intros c v H. rewrite map_length. exact (FL c v H).
  - unfold fill_days in F. rewrite PF in F. destruct (f_index (p_data f)) as [|t0 l] eqn:E; [discriminate|].
    destruct (span_range t0 l R I) as (D & _). rewrite D in F. unfold frame_reindex in F. destruct (has_dup _); [discriminate|]. injection F as <-.
    exists (zseq (date_of t0) (span (t0 :: l))). split; [apply zseq_sorted|]. cbn [f_index f_cols]. split.
    + unfold daily_index, zseq, grid. rewrite map_map. apply map_ext. intro i. unfold midnight. ring.
    + intros c v H. apply in_map_iff in H as (x & X & _). injection X as _ <-. unfold align, zseq, grid, daily_index, grid. rewrite !map_length. reflexivity.
Qed.
Lemma warm_rows df : existsb (too_cold df) ["tmin"; "tmax"; "tmean"]%string = false ->
  forall c v x, In c ["tmin"; "tmax"; "tmean"]%string -> assoc c (f_cols df) = Some v -> In x v -> ~ cold x.
Proof.
  intros H c v x I A Hx C. apply not_true_iff_false in H. apply H. apply existsb_exists. exists c. split; [exact I|]. unfold too_cold. rewrite A.
  apply existsb_exists. exists x. split; [exact Hx|]. apply cold_ltb, C.
Qed.
Lemma hours_known e ds : ds <> [] -> StronglySorted Z.lt ds -> has_index_to_datetime e = true \/ unbroken ds ->
  hourly_index e (map midnight ds) = Ok (days_hours ds).
Proof.
  intros NE SS [H|U]; [|apply hourly_index_gapfree; assumption].
  rewrite hourly_index_days by assumption. rewrite H. destruct (Nat.ltb _ _); reflexivity.
Qed.
Lemma empty_hourly_shape hours : hourly_shape (empty_hourly hours).
Proof.
  split; [reflexivity|]. intros c v I. cbn [empty_hourly f_cols f_index] in *. apply in_map_iff in I as (x & E & _). injection E as _ <-. apply map_length.
Qed.
Lemma set_daily_consistent e st v : value_ok v -> consistent e st -> consistent e (fst (set_daily e st v)).
Proof.
  intros V C. unfold set_daily. destruct v as [f|]; [|exact C].
  destruct (p_datetime f) eqn:P; cbn [negb]; [|exact C]. destruct (day_resolution _) eqn:R; cbn [negb]; [|exact C]. destruct (is_increasing _) eqn:I; cbn [negb]; [|exact C].
  destruct (fill_days f) as [df|x] eqn:F; [|exact C]. destruct (existsb (too_cold df) _) eqn:W; [exact C|].
  destruct (stored_rows f df V P R I F) as (ds & D1 & D2 & D3). pose proof (warm_rows df W) as WR.
  destruct (hourly_index e (f_index df)) as [hours|x] eqn:H.
  - assert (K : consistent e (with_disagg (with_daily st (Some df)) (Some (empty_hourly hours)))).
    { split; [discriminate|]. split; [cbn; intros d X; injection X as <-; apply empty_hourly_shape|].
      cbn. intros df' X. injection X as <-. split; [exact WR|]. exists ds. split; [exact D1|]. split; [exact D2|]. split; [exact D3|].
      intros NE HH. exists (empty_hourly hours). split; [reflexivity|]. rewrite D2, (hours_known e ds NE D1 HH) in H. injection H as <-. reflexivity. }
    destruct (s_tz (with_disagg (with_daily st (Some df)) (Some (empty_hourly hours)))); [|exact K].
    eapply consistent_frames; [|exact K]. exact (calc_sun_data _).
  - destruct C as (A & B & _). split; [discriminate|]. split; [exact B|]. cbn. intros df' X. injection X as <-. split; [exact WR|].
    exists ds. split; [exact D1|]. split; [exact D2|]. split; [exact D3|]. intros NE HH. rewrite D2, (hours_known e ds NE D1 HH) in H. discriminate.
Qed.
Lemma run_data_consistent e q st o : (forall v, o = DDaily v -> value_ok v) -> consistent e st -> consistent e (fst (run_data e q st o)).
Proof.
  intros V C. assert (S : consistent e (fst (calc_sun_times st))) by (eapply consistent_frames; [exact (calc_sun_data st)|exact C]).
  destruct o as [v| |m d|m k|m t n|m u s ms d|m p]; cbn [run_data].
  - apply set_daily_consistent; [exact (V v eq_refl)|exact C].
  - exact S.
  - unfold st_wind. destruct (bind _ _) as [[[s|l] k]|x]; [apply put_series_consistent|apply put_array_consistent|exact C]; try exact C; cbn; tauto.
  - apply finish_consistent; [cbn; tauto|exact C].
  - apply finish_consistent; [cbn; tauto|exact C].
  - apply finish_consistent; [cbn; tauto|exact C].
  - unfold st_radiation. destruct (s_sun st).
    + apply finish_consistent; [cbn; tauto|exact C].
    + destruct (calc_sun_times st) as [st1 [x|]]; cbn [fst] in S; [exact S|]. apply finish_consistent; [cbn; tauto|exact S].
Qed.

(** ** Programs *)
Section Fits.
  Variable curve_fit : list RadModel.row4 -> res (xr * xr).
  Variable minimize_bias : list RadModel.row4 -> res (xr * xr).
  Variable fit_cosine : list (xr * Z * xr) -> res (xr * xr * xr).
  Variable linregress : list (xr * xr) -> res (xr * xr).
  Variable percentile : xr -> list xr -> res xr.
  Notation step := (step curve_fit minimize_bias fit_cosine linregress percentile).
  Notation run := (run curve_fit minimize_bias fit_cosine linregress percentile).

  Definition all_consistent (e : env) (w : world) : Prop := forall i st, nth_error (w_stations w) i = Some st -> consistent e st.
  Lemma upd_consistent e w i st : consistent e st -> all_consistent e w -> all_consistent e (upd_station w i st).
  Proof.
    intros S W j x H. cbn [upd_station w_stations] in H. rewrite nth_upd in H. destruct (Nat.eqb i j); [|exact (W j x H)].
    destruct (nth_error (w_stations w) j); [|discriminate]. injection H as <-. exact S.
  Qed.
  Lemma set_lon_consistent e w i v : all_consistent e w -> all_consistent e (set_lon w i v).
  Proof.
    intro W. unfold set_lon. destruct (nth_error (w_stations w) i) as [st|] eqn:H; [|exact W]. refine (upd_consistent e w i _ _ W).
    apply (consistent_frames e _ st); [split; reflexivity|exact (W i st H)].
  Qed.
  Lemma set_lat_consistent e w i v : all_consistent e w -> all_consistent e (set_lat w i v).
  Proof.
    intro W. unfold set_lat. destruct (nth_error (w_stations w) i) as [st|] eqn:H; [|exact W]. refine (upd_consistent e w i _ _ W).
    apply (consistent_frames e _ st); [split; reflexivity|exact (W i st H)].
  Qed.
  Lemma set_tz_consistent e w i v : all_consistent e w -> all_consistent e (set_tz w i v).
  Proof.
    intro W. unfold set_tz. destruct (nth_error (w_stations w) i) as [st|] eqn:H; [|exact W]. refine (upd_consistent e w i _ _ W).
    apply (consistent_frames e _ st); [split; reflexivity|exact (W i st H)].
  Qed.
  Lemma set_stats_consistent e w i r : all_consistent e w -> all_consistent e (set_stats w i r).
  Proof.
    intro W. unfold set_stats. destruct (nth_error (w_stations w) i) as [st|] eqn:H; [|exact W].
    apply upd_consistent; [apply (consistent_frames e _ st); [split; reflexivity|exact (W i st H)]|]. exact W.
  Qed.
  Lemma blank_consistent e r : consistent e (blank r).
  Proof. split; [reflexivity|]. split; discriminate. Qed.
  Lemma step_consistent e w o : op_ok o -> all_consistent e w -> all_consistent e (fst (step e w o)).
  Proof.
    intros V W. destruct o as [lon lat tz|lon lat tz daily|i v|i v|i v|i [r|]|r o|i o]; cbn [StationModel.step]; cbn [fst].
    - exact W.
    - unfold new_station. fold (blank (length (w_stats w))).
      set (w1 := {| w_stats := _; w_stations := _ |}).
      assert (W1 : all_consistent e w1).
      { intros j x H. unfold w1 in H. cbn [w_stations] in H. destruct (Nat.ltb_spec j (length (w_stations w))) as [L|G].
        - rewrite nth_error_app1 in H by exact L. exact (W j x H).
        - rewrite nth_error_app2 in H by exact G. destruct (j - length (w_stations w))%nat as [|[|k]]; try discriminate. cbn in H. injection H as <-. apply blank_consistent. }
      set (w2 := set_tz _ _ _). assert (W2 : all_consistent e w2) by (apply set_tz_consistent, set_lat_consistent, set_lon_consistent, set_stats_consistent, W1).
      destruct daily as [v|]; [|exact W2]. destruct (nth_error (w_stations w2) (length (w_stations w))) as [st|] eqn:H; [|exact W2].
      pose proof (set_daily_consistent e st v V (W2 _ st H)) as S. destruct (set_daily e st v) as [st' [x|]]; cbn [fst] in *; [exact W|]. apply upd_consistent; assumption.
    - apply set_lon_consistent, W.
    - apply set_lat_consistent, W.
    - apply set_tz_consistent, W.
    - destruct (Nat.ltb _ _); [apply set_stats_consistent|]; exact W.
    - exact W.
    - destruct (nth_error (w_stats w) r) as [q|]; [|exact W]. destruct (run_stat _ _ _ _ _ e q o). exact W.
    - destruct (nth_error (w_stations w) i) as [st|] eqn:H; [|exact W].
      pose proof (run_data_consistent e (stats_of w (s_stats st)) st o) as S.
      destruct (run_data e (stats_of w (s_stats st)) st o) as [st' err]. cbn [fst] in *. apply upd_consistent; [|exact W]. apply S; [|exact (W i st H)].
      intros v ->. exact V.
  Qed.
  Lemma run_consistent e ops : forall w, Forall op_ok ops -> all_consistent e w -> all_consistent e (run e ops w).
  Proof.
    induction ops as [|o ops IH]; intros w V W; [exact W|]. inversion V as [|? ? V1 V2]; subst. unfold StationModel.run. cbn [fold_left].
    apply (IH _ V2). apply step_consistent; assumption.
  Qed.
End Fits.

Theorem C116_consistent cf mb fc lr pc e ops i st : Forall op_ok ops ->
  nth_error (w_stations (run cf mb fc lr pc e ops empty_world)) i = Some st -> consistent e st.
Proof.
  intros V H. refine (run_consistent cf mb fc lr pc e ops empty_world V _ i st H). intros j x X. destruct j; discriminate X.
Qed.
Print Assumptions C116_consistent.

Lemma consistent_ready e st df d0 n : consistent e st -> s_daily st = Some df -> n <> O -> f_index df = daily_index d0 n ->
  ready st d0 n df /\ forall c, In c hourly_names -> exists v, hourly_column st c = Some v /\ length v = (24 * n)%nat.
Proof.
  intros (A & B & C) D N0 I. destruct (C df D) as [_ (ds & C1 & C2 & _ & C5)].
  assert (Z0 : daily_index d0 n = map midnight (zseq d0 n)).
  { unfold daily_index, zseq, grid. rewrite map_map. apply map_ext. intro k. unfold midnight. ring. }
  assert (E : ds = zseq d0 n).
  { rewrite I, Z0 in C2. clear - C2. assert (M : forall a b, map midnight a = map midnight b -> a = b).
    { induction a as [|x a IH]; intros [|y b] X; try discriminate; [reflexivity|]. cbn in X. injection X as X1 X2. f_equal; [unfold midnight, us_day in X1; lia|apply IH, X2]. }
    symmetry. apply M, C2. }
  destruct C5 as (d & E1 & E2).
  - rewrite E. intro X. apply (f_equal (@length Z)) in X. unfold zseq in X. rewrite grid_length in X. cbn in X. lia.
  - right. rewrite E. intros g x y Hx Hy G. unfold zseq in *. apply grid_In in Hx as (a & La & ->). apply grid_In in Hy as (b & Lb & ->). apply grid_In.
    exists (Z.to_nat (g - d0)). split; lia.
  - destruct (B d E1) as [S1 S2]. assert (E3 : f_index d = hours_index d0 n) by (rewrite E2, E; unfold hours_index; symmetry; apply hours_flat).
    split.
    + split; [exact N0|]. split; [exact D|]. split; [exact I|]. exists d. repeat split; assumption.
    + intros c IC. unfold hourly_column. rewrite E1. destruct (assoc c (f_cols d)) as [v|] eqn:AC.
      * exists v. split; [reflexivity|]. rewrite (S2 c v (assoc_in _ _ _ AC)), E3. unfold hours_index. apply grid_length.
      * exfalso. rewrite <- S1 in IC. clear - AC IC. induction (f_cols d) as [|[k v] l IH]; [destruct IC|]. cbn in AC, IC.
        destruct (String.eqb_spec k c); [discriminate|]. destruct IC as [IC|IC]; [contradiction|auto].
Qed.
(** daily data for consecutive days: the hourly frame belongs to them, whatever was called before *)
Theorem C116_ready cf mb fc lr pc e ops i st df d0 n : Forall op_ok ops ->
  nth_error (w_stations (run cf mb fc lr pc e ops empty_world)) i = Some st ->
  s_daily st = Some df -> n <> O -> f_index df = daily_index d0 n ->
  ready st d0 n df /\ forall c, In c hourly_names -> exists v, hourly_column st c = Some v /\ length v = (24 * n)%nat.
Proof. intros V H D N0 I. exact (consistent_ready e st df d0 n (C116_consistent cf mb fc lr pc e ops i st V H) D N0 I). Qed.
Print Assumptions C116_ready.
(** a program that meets the hypotheses: the second assignment replaces the first, a call fails in between *)
Definition day_frame (freq : bool) (days : list Z) : pframe :=
  {| p_datetime := true; p_freq := freq; p_data := Build_dframe (map midnight days) [("precip"%string, map (fun _ => Fin 1) days)] |}.
Lemma day_frame_ok freq days : StronglySorted Z.lt days -> SpecStation.frame_ok (day_frame freq days).
Proof.
  intro SS. split.
  - intros c v [E|[]]. injection E as <- <-. cbn. rewrite !map_length. reflexivity.
  - intros _ _. cbn. induction SS as [|a l SS IH F]; [constructor|]. cbn [map]. constructor; [exact IH|].
    rewrite Forall_forall in *. intros t H. apply in_map_iff in H as (x & <- & H). specialize (F x H). unfold midnight, us_day. lia.
Qed.
Definition ex_ops : list op :=
  [NewStation None None None (Some (VFrame (day_frame false [0; 1; 3]))); OnData 0 (DDaily VOther); OnData 0 (DDaily (VFrame (day_frame true [1; 2])));
   OnData 0 (DPrecip "equal" true 0 None (fun _ _ => NaN)); SetLon 0 (Some (Fin 5))].
Lemma ex_ops_ok : Forall op_ok ex_ops.
Proof. repeat constructor; try discriminate; apply day_frame_ok; repeat constructor; lia. Qed.
Example C116_met cf mb fc lr pc :
  Forall op_ok ex_ops /\ exists st df, nth_error (w_stations (run cf mb fc lr pc modern ex_ops empty_world)) 0 = Some st /\
    s_daily st = Some df /\ f_index df = daily_index 1 2.
Proof.
  split; [exact ex_ops_ok|]. do 2 eexists. split; [reflexivity|]. split; reflexivity.
Qed.
(** without this the frames need not belong together: after an assignment with every second day (current pandas) the
    hourly frame is still the one of the days before *)
Theorem C116_stale_refuted cf mb fc lr pc : exists ops i st df d, Forall op_ok ops /\
  nth_error (w_stations (run cf mb fc lr pc modern ops empty_world)) i = Some st /\
  s_daily st = Some df /\ s_disagg st = Some d /\ f_index df = map midnight [8; 10] /\ f_index d = hours_index 0 1.
Proof.
  exists [NewStation None None None (Some (VFrame (day_frame false [0]))); OnData 0 (DDaily (VFrame (day_frame true [8; 10])))], O.
  do 3 eexists. split; [repeat constructor; try discriminate; apply day_frame_ok; repeat constructor; lia|].
  split; [reflexivity|]. split; [reflexivity|]. split; [reflexivity|]. split; reflexivity.
Qed.
Print Assumptions C116_stale_refuted.
