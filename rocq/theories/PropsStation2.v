(** Properties C80-C85: what the disaggregation methods leave in the hourly frame of a station. *)
From Coq Require Import String ZArith List Bool Reals Sorted Lia Lra.
From Verif Require Import Py Num Cal Series Frame SpecBase TimeProofs IndexProofs DaysProofs InterpProofs TempProofs RadBC UtilModel CascadeModel PrecipModel SpecCascade PropsCascade MasterProofs PropsPrecip
  AggModel BuildProofs Trans UtilModel2 SpecUtil SpecRad RadProofs SunProofs TempModel RadModel HumModel HumProofs PropsHum WindModel PropsWind StationModel SpecStation StationProofs StationDaily StationCascade PropsStation.
Import ListNotations.
Open Scope Z_scope.

(** ** storing a result *)
Lemma combine_parts (s : series xr) : combine (index s) (values s) = s.
Proof. unfold index, values. induction s as [|[t v] s IH]; [reflexivity|]. cbn. f_equal. exact IH. Qed.
Lemma put_assoc name vals d : In name (map fst (f_cols d)) -> assoc name (f_cols (put_column name vals d)) = Some vals.
Proof.
  cbn [put_column f_cols]. induction (f_cols d) as [|[k v] l IH]; [intros []|]. cbn [map fst In assoc]. intro H.
  destruct (String.eqb_spec k name) as [->|N]; cbn [assoc].
  - rewrite String.eqb_refl. reflexivity.
  - destruct (String.eqb_spec k name); [contradiction|]. apply IH. destruct H; [contradiction|assumption].
Qed.
Lemma put_names name vals d : map fst (f_cols (put_column name vals d)) = map fst (f_cols d).
Proof. apply put_column_ok. Qed.
Lemma same_labels_true a b : same_labels a b = true -> a = b.
Proof. revert b. induction a as [|x a IH]; intros [|y b] H; cbn in H; try discriminate; [reflexivity|]. apply andb_true_iff in H as [H1 H2]. apply Z.eqb_eq in H1. f_equal; auto. Qed.
Lemma put_series_ready st d0 n dd name s : ready st d0 n dd -> In name hourly_names -> index s = hours_index d0 n ->
  exists st', put_series name s st = (st', None) /\ ready st' d0 n dd /\ hourly_column st' name = Some (values s) /\
    (forall day, hourly_on st' name day = values_on day s) /\ (forall c, c <> name -> hourly_column st' c = hourly_column st c).
Proof.
  intros (N0 & E1 & E2 & d & E3 & E4 & E5) IN IX. unfold put_series. rewrite E3, IX, E4, same_labels_refl.
  eexists. split; [reflexivity|]. unfold ready, hourly_column, hourly_on. cbn [with_disagg s_daily s_disagg]. rewrite E3.
  split; [split; [exact N0|]; split; [exact E1|]; split; [exact E2|]; eexists; split; [reflexivity|]; split; [exact E4|rewrite put_names; exact E5]|].
  rewrite put_assoc by (rewrite E5; exact IN). split; [reflexivity|]. split.
  - intro day. cbn [put_column f_index]. rewrite E4, <- IX, combine_parts. reflexivity.
  - intros c NC. apply put_column_ok, NC.
Qed.
Lemma put_array_ready st d0 n dd name l : ready st d0 n dd -> In name hourly_names -> length l = (24 * n)%nat ->
  exists st', put_array name l st = (st', None) /\ ready st' d0 n dd /\ hourly_column st' name = Some l /\
    (forall i, (i < n)%nat -> hourly_on st' name (d0 + Z.of_nat i) = array_day l i) /\ (forall c, c <> name -> hourly_column st' c = hourly_column st c).
Proof.
  intros (N0 & E1 & E2 & d & E3 & E4 & E5) IN IX. unfold put_array. rewrite E3, IX, E4, hours_length, (Nat.mul_comm n 24), Nat.eqb_refl.
  eexists. split; [reflexivity|]. unfold ready, hourly_column, hourly_on. cbn [with_disagg s_daily s_disagg]. rewrite E3.
  split; [split; [exact N0|]; split; [exact E1|]; split; [exact E2|]; eexists; split; [reflexivity|]; split; [exact E4|rewrite put_names; exact E5]|].
  rewrite put_assoc by (rewrite E5; exact IN). split; [reflexivity|]. split.
  - intros i Hi. cbn [put_column f_index]. rewrite E4.
    assert (EL : l = map (fun k => nth k l NaN) (seq 0 (24 * n))).
    { apply nth_ext with (d := NaN) (d' := nth O l NaN); [rewrite map_length, seq_length; exact IX|].
      intros k Hk. rewrite (map_nth (fun k => nth k l NaN)), seq_nth by lia. reflexivity. }
    rewrite EL at 1. rewrite values_on_combine by exact Hi. unfold array_day.
    apply nth_ext with (d := nth (24 * i + 0) l NaN) (d' := NaN).
    + rewrite map_length, seq_length, firstn_length, skipn_length. lia.
    + rewrite map_length, seq_length. intros h Hh. rewrite (map_nth (fun h => nth (24 * i + h) l NaN)), seq_nth by exact Hh. cbn [Nat.add].
      assert (NF : forall a j (m : list xr), (j < a)%nat -> nth j (firstn a m) NaN = nth j m NaN).
      { clear. intros a. induction a as [|a IH]; intros j m H; [lia|]. destruct m as [|x m]; [reflexivity|]. destruct j as [|j]; [reflexivity|]. cbn. apply IH. lia. }
      assert (NS : forall a j (m : list xr), nth j (skipn a m) NaN = nth (a + j) m NaN).
      { clear. intros a. induction a as [|a IH]; intros j m; [reflexivity|]. destruct m as [|x m]; [destruct j; reflexivity|]. apply IH. }
      rewrite NF, NS by exact Hh. reflexivity.
  - intros c NC. apply put_column_ok, NC.
Qed.
(** a successful assignment of daily data makes the station ready *)
Lemma set_daily_ready e st f st' : frame_ok f -> (p_freq f = false \/ has_index_to_datetime e = false) ->
  set_daily e st (VFrame f) = (st', None) -> exists d0 n dd, ready st' d0 n dd.
Proof.
  intros FO A H. destruct (C53_gap_free e st f st' FO A H) as (d0 & n & df & N0 & D1 & D2 & _ & _ & _ & _ & D6 & _).
  exists d0, n, df. split; [exact N0|]. split; [exact D1|]. split; [exact D2|]. eexists. split; [exact D6|]. split; [reflexivity|]. cbn [f_cols]. rewrite map_map. cbn [fst]. apply map_id.
Qed.
Lemma ready_column st d0 n dd name l : ready st d0 n dd -> has_column dd name l -> daily_col st name = Ok (daily d0 l) /\ length l = n.
Proof.
  intros (N0 & E1 & E2 & _) HC. unfold daily_col. rewrite E1. apply column_daily; [split; assumption|exact HC].
Qed.

(** ** C85 *)
Theorem C85_precipitation_equal e q st d0 n dd amounts u shft master draws : ready st d0 n dd -> has_column dd "precip" amounts ->
  exists st', st_precipitation e q st "equal" u shft master draws = (st', None) /\ ready st' d0 n dd /\
    (forall c, c <> "precip"%string -> hourly_column st' c = hourly_column st c) /\
    forall i a, nth_error amounts i = Some a ->
      match a with
      | Fin r => hourly_on st' "precip" (d0 + Z.of_nat i) = repeat (Fin (r / 24)) 24 /\ Rsum (repeat (r / 24)%R 24) = r
      | NaN => hourly_on st' "precip" (d0 + Z.of_nat i) = repeat NaN 24
      | _ => True
      end.
Proof.
  intros RD HC. destruct (ready_column _ _ _ _ _ _ RD HC) as [DC L]. assert (NE : amounts <> []) by (destruct RD as (N0 & _); intros ->; apply N0; symmetry; exact L).
  unfold st_precipitation. cbn [String.eqb Ascii.eqb Bool.eqb]. rewrite DC. cbv zeta iota.
  destruct (C22_equal_distribution e d0 amounts None [] true shft (draws O) O NE) as (out & E & IX & V).
  change (@Some (series xr)) with (@Some (list (Z * xr))). rewrite E. cbn [bind finish].
  destruct (put_series_ready st d0 n dd "precip" out RD) as (st' & P & RD' & _ & HO & OC); [cbn; tauto|unfold index; rewrite IX, L; reflexivity|].
  exists st'. split; [exact P|]. split; [exact RD'|]. split; [exact OC|]. intros i a Hi. rewrite HO. specialize (V i a Hi). destruct a; auto.
Qed.
Print Assumptions C85_precipitation_equal.
Theorem C85_wind e q st d0 n dd w draw : ready st d0 n dd -> has_column dd "wind" w ->
  (exists st', st_wind e q st "equal" draw = (st', None) /\ ready st' d0 n dd /\
     forall i, (i < n)%nat -> hourly_on st' "wind" (d0 + Z.of_nat i) = repeat (nth i w NaN) 24) /\
  (forall a b s, q_wind_a q = Some (Fin a) -> q_wind_b q = Some (Fin b) -> q_wind_shift q = Some (Fin s) ->
   exists st', st_wind e q st "cosine" draw = (st', None) /\ ready st' d0 n dd /\
     forall i v, nth_error w i = Some (Fin v) -> exists x, hourly_on st' "wind" (d0 + Z.of_nat i) = map Fin x /\ length x = 24%nat /\
       (Rmean x = b * v)%R /\ forall h, (h < 24)%nat -> nth h x 0%R = (a * v * cos (PI * (INR h - s) / 12) + b * v)%R).
Proof.
  intros RD HC. destruct (ready_column _ _ _ _ _ _ RD HC) as [DC L]. assert (NE : w <> []) by (destruct RD as (N0 & _); intros ->; apply N0; symmetry; exact L).
  unfold st_wind. rewrite DC. cbn [bind]. split.
  - destruct (C50_equal e d0 w (q_wind_a q) (q_wind_b q) (q_wind_shift q) draw NE) as (out & E & IX & V). rewrite E.
    destruct (put_series_ready st d0 n dd "wind" out RD) as (st' & P & RD' & _ & HO & OC); [cbn; tauto|unfold index; rewrite IX, L; reflexivity|].
    exists st'. split; [exact P|]. split; [exact RD'|]. intros i Hi. rewrite HO. apply V. lia.
  - intros a b s Ea Eb Es. rewrite Ea, Eb, Es. destruct (C50_cosine e d0 w a b s draw NE) as (l & E & LL & V). rewrite E.
    destruct (put_array_ready st d0 n dd "wind" l RD) as (st' & P & RD' & _ & HO & OC); [cbn; tauto|lia|].
    exists st'. split; [exact P|]. split; [exact RD'|]. intros i v Hi. destruct (V i v Hi) as (x & A & B & C & D & _). exists x.
    rewrite HO by (rewrite <- L; apply nth_error_Some; congruence). repeat split; assumption.
Qed.
Print Assumptions C85_wind.
(** the daily data of the example and a station with them *)
Definition ex_day : dframe xr :=
  Build_dframe (daily_index 0 4) [("precip"%string, ex_amounts); ("wind"%string, [Fin 1; Fin 2; NaN; Fin 4]); ("tmin"%string, [Fin 270; Fin 271; Fin 272; Fin 273])].
Definition ex_ready : station :=
  {| s_lon := None; s_lat := None; s_tz := None; s_stats := O; s_daily := Some ex_day; s_disagg := Some (empty_hourly (hours_index 0 4)); s_sun := None |}.
Example C85_met : ready ex_ready 0 4 ex_day /\ has_column ex_day "precip" ex_amounts /\ has_column ex_day "wind" [Fin 1; Fin 2; NaN; Fin 4].
Proof.
  split; [|split; split; reflexivity]. split; [discriminate|]. split; [reflexivity|]. split; [reflexivity|]. eexists. split; [reflexivity|]. split; reflexivity.
Qed.

(** ** C81 *)
Theorem C81_cascade_conserves e q st d0 n dd amounts months stats u master draws st' : has_index_to_datetime e = false ->
  ready st d0 n dd -> has_column dd "precip" amounts -> Forall amount_ok amounts ->
  q_months q = Some months -> q_casc q = Some stats -> (forall mo, In mo months -> season_months mo <> [] /\ NoDup (season_months mo)) ->
  st_precipitation e q st "cascade" u 0 master draws = (st', None) ->
  ready st' d0 n dd /\ (forall c, c <> "precip"%string -> hourly_column st' c = hourly_column st c) /\
  forall i a, nth_error amounts i = Some a ->
    (* the day belongs to a season that has statistics and at least two days in the record *)
    ((exists k mo, nth_error months k = Some mo /\ (k < length stats)%nat /\ season_day mo (d0 + Z.of_nat i) /\
        exists j, (j < n)%nat /\ j <> i /\ season_day mo (d0 + Z.of_nat j)) ->
     match a with
     | Fin r => exists hs, hourly_on st' "precip" (d0 + Z.of_nat i) = map Fin hs /\ length hs = 24%nat /\ Forall (fun h => 0 <= h)%R hs /\ Rsum hs = r
     | _ => hourly_on st' "precip" (d0 + Z.of_nat i) = repeat NaN 24
     end) /\
    (~ (exists k mo, nth_error months k = Some mo /\ (k < length stats)%nat /\ season_day mo (d0 + Z.of_nat i) /\
          exists j, (j < n)%nat /\ j <> i /\ season_day mo (d0 + Z.of_nat j)) ->
     hourly_on st' "precip" (d0 + Z.of_nat i) = repeat NaN 24).
Proof.
  intros T RD HC AO QM QC WF H. destruct (ready_column _ _ _ _ _ _ RD HC) as [DC L].
  unfold st_precipitation in H. cbn [String.eqb Ascii.eqb Bool.eqb] in H.
  destruct (st_cascade e q st u 0 draws) as [out|x] eqn:E; [|discriminate H]. cbn [finish] in H.
  unfold st_cascade in E. rewrite QM, QC in E. destruct RD as (N0 & RD2 & RD3 & d & RD4 & RD5 & RD6).
  assert (RD : ready st d0 n dd) by (split; [exact N0|]; split; [exact RD2|]; split; [exact RD3|]; exists d; repeat split; assumption).
  rewrite RD4, RD5 in E. subst n.
  assert (E' : st_seasons e (daily d0 amounts) u 0 draws 0 (combine months stats) (map (fun t => (t, NaN)) (hours_index d0 (length amounts))) = Ok out).
  { destruct (combine months stats) as [|p r]; [exact E|]. rewrite DC in E. exact E. }
  clear E. rename E' into E.
  destruct (seasons_loop e d0 amounts u draws T AO (combine months stats) 0 (fun _ => NaN) out) as (g & EQ & D); [|exact E|].
  { intros mo arg I. apply WF. exact (in_combine_l _ _ _ _ I). }
  destruct (put_series_ready st d0 (length amounts) dd "precip" out RD) as (st1 & P & RD' & _ & HO & OC); [cbn; tauto|rewrite EQ; unfold index; rewrite map_map; apply map_id|].
  assert (st1 = st') by congruence. subst st1. split; [exact RD'|]. split; [exact OC|].
  intros i a Hi. assert (Li : (i < length amounts)%nat) by (apply nth_error_Some; congruence). rewrite HO. specialize (D i a Hi).
  assert (B : (exists k mo, nth_error months k = Some mo /\ (k < length stats)%nat /\ season_day mo (d0 + Z.of_nat i) /\
                exists j, (j < length amounts)%nat /\ j <> i /\ season_day mo (d0 + Z.of_nat j)) <->
              exists mo arg, In (mo, arg) (combine months stats) /\ two_days mo d0 (length amounts) /\ season_day mo (d0 + Z.of_nat i)).
  { split.
    - intros (k & mo & Hk & Lk & Sd & j & Lj & NJ & Sj). destruct (nth_error stats k) as [arg|] eqn:Ek; [|apply nth_error_None in Ek; lia].
      exists mo, arg. split; [|split; [|exact Sd]].
      + clear - Hk Ek. revert stats k Hk Ek. induction months as [|m ms IH]; intros [|s ss] [|k] Hk Ek; cbn in *; try discriminate; [left; congruence|right; eapply IH; eassumption].
      + destruct (Nat.lt_total i j) as [LT|[EQ2|GT]]; [exists i, j|congruence|exists j, i]; repeat split; try assumption; lia.
    - intros (mo & arg & I & (x & y & (Lxy & Ly) & Sx & Sy) & Sd).
      assert (exists k, nth_error months k = Some mo /\ (k < length stats)%nat) as (k & Hk & Lk).
      { clear - I. revert stats I. induction months as [|m ms IH]; intros [|s ss] I; cbn in I; try contradiction. destruct I as [I|I].
        - injection I as -> ->. exists O. split; [reflexivity|cbn; lia].
        - destruct (IH ss I) as (k & A & B). exists (S k). split; [exact A|cbn; lia]. }
      exists k, mo. split; [exact Hk|]. split; [exact Lk|]. split; [exact Sd|]. destruct (Nat.eq_dec x i) as [->|]; [exists y|exists x]; repeat split; try assumption; lia. }
  assert (NN : values_on (d0 + Z.of_nat i) (map (fun t => (t, NaN)) (hours_index d0 (length amounts))) = repeat NaN 24) by (rewrite values_on_map_hours by exact Li; reflexivity).
  split; intro HS.
  - apply B in HS as (mo & arg & I & TD & Sd). destruct D as [[D _]|[_ D]]; [exfalso; exact (D mo arg I TD Sd)|]. unfold day_result in D. destruct a; exact D.
  - destruct D as [[_ D]|[D _]]; [rewrite D; exact NN|exfalso; apply HS, B, D].
Qed.
Print Assumptions C81_cascade_conserves.
Definition ex_seasons : sstats := with_precip (new_stats None None None) None (Some [Some [12; 1; 2]]) (Some [COne ex_stats]).
Example C81_met : exists st', st_precipitation modern ex_seasons ex_ready "cascade" false 0 None (fun _ => ex_draws) = (st', None).
Proof.
  destruct C01_met as (_ & out & E).
  assert (FX : filter (fun p => mem (month_of (fst p)) [12; 1; 2]) (daily 0 ex_amounts) = daily 0 ex_amounts) by (vm_compute; reflexivity).
  assert (SS : seasonal_subset (daily 0 ex_amounts) (Some [12; 1; 2]) = Ok (daily 0 ex_amounts)).
  { rewrite season_subset; [cbn [season_months]; rewrite FX; reflexivity|discriminate|repeat constructor; cbn; lia]. }
  assert (IX : map fst out = hours_index 0 4).
  { destruct (season_result modern 0 ex_amounts None (COne ex_stats) ex_draws out eq_refl ex_amounts_ok) as (d1 & m & A & B & _).
    - discriminate.
    - repeat constructor; cbn; lia.
    - replace (filter _ _) with (daily 0 ex_amounts) by (vm_compute; reflexivity). exact E.
    - assert (MD : forall i, season_day None (0 + Z.of_nat i)).
      { intro i. unfold season_day, season_months. pose proof (month_range (0 + Z.of_nat i)). remember (month_of_day (0 + Z.of_nat i)) as x. clear - H. cbn [In]. lia. }
      assert (C : forall d, d1 <= d < d1 + Z.of_nat m <-> 0 <= d < 4).
      { intro d. rewrite B. split.
        - intros (i & Li & -> & _). cbn [length ex_amounts] in Li. lia.
        - intro H. exists (Z.to_nat d). split; [cbn [length ex_amounts]; lia|]. split; [lia|]. replace d with (0 + Z.of_nat (Z.to_nat d)) by lia. apply MD. }
      assert (d1 = 0 /\ m = 4%nat) as [-> ->]; [|exact A].
      pose proof (proj2 (C 0) ltac:(lia)). pose proof (proj2 (C 3) ltac:(lia)). pose proof (proj1 (C d1)). pose proof (proj1 (C (d1 + Z.of_nat m - 1))). lia. }
  assert (ov : exists o2, overlay (map (fun t => (t, NaN)) (hours_index 0 4)) out = Ok o2 /\ index o2 = hours_index 0 4).
  { unfold overlay. replace (forallb _ _) with true.
    - eexists. split; [reflexivity|]. unfold index. rewrite !map_map. cbn [fst]. apply map_id.
    - symmetry. apply forallb_forall. intros t Ht. apply mem_In. unfold index in *. rewrite map_map, map_id. rewrite IX in Ht. exact Ht. }
  destruct ov as (o2 & OV & IX2). unfold st_precipitation. cbn [String.eqb Ascii.eqb Bool.eqb].
  assert (SC : st_cascade modern ex_seasons ex_ready false 0 (fun _ => ex_draws) = Ok o2).
  { unfold st_cascade. cbn [ex_ready s_disagg ex_seasons with_precip q_months q_casc combine empty_hourly f_index].
    replace (daily_col _ "precip") with (Ok (daily 0 ex_amounts)) by (symmetry; apply (ready_column ex_ready 0 4 ex_day "precip" ex_amounts); apply C85_met).
    cbn [bind st_seasons]. rewrite SS. cbn [bind]. change (length (daily 0 ex_amounts)) with 4%nat. cbn [Nat.ltb Nat.leb]. unfold disagg_prec. rewrite E. cbn [bind]. rewrite OV. reflexivity. }
  rewrite SC. cbn [finish]. destruct (put_series_ready ex_ready 0 4 ex_day "precip" o2 (proj1 C85_met)) as (st' & P & _); [cbn; tauto|exact IX2|]. exists st'. exact P.
Qed.

(** ** C80 *)
Theorem C80_season_with_gap e q st d0 n dd amounts months stats u shft master draws k mo a g b : has_index_to_datetime e = false ->
  ready st d0 n dd -> has_column dd "precip" amounts -> q_months q = Some months -> q_casc q = Some stats ->
  nth_error months k = Some mo -> (k < length stats)%nat -> season_months mo <> [] -> NoDup (season_months mo) ->
  d0 <= a < g -> g < b < d0 + Z.of_nat n -> season_day mo a -> season_day mo b -> ~ season_day mo g ->
  exists x, st_precipitation e q st "cascade" u shft master draws = (st, Some x).
Proof.
  intros T RD HC QM QC Hk Lk NE ND H1 H2 Sa Sb Sg. destruct (ready_column _ _ _ _ _ _ RD HC) as [DC L]. subst n.
  unfold st_precipitation. cbn [String.eqb Ascii.eqb Bool.eqb].
  destruct (nth_error stats k) as [arg|] eqn:Ek; [|apply nth_error_None in Ek; lia].
  assert (I : In (mo, arg) (combine months stats)).
  { clear - Hk Ek. revert stats k Hk Ek. induction months as [|m ms IH]; intros [|s ss] [|k] Hk Ek; cbn in *; try discriminate; [left; congruence|right; eapply IH; eassumption]. }
  destruct RD as (N0 & RD2 & RD3 & d & RD4 & RD5 & RD6).
  destruct (seasons_gap e d0 amounts u shft draws T (combine months stats) 0 (map (fun t => (t, NaN)) (hours_index d0 (length amounts))) mo arg a g b I NE ND H1 H2 Sa Sb Sg) as (x & E).
  exists x. unfold st_cascade. rewrite RD4, RD5, QM, QC. destruct (combine months stats) as [|p r]; [destruct I|]. rewrite DC. cbn [bind]. rewrite E. reflexivity.
Qed.
Print Assumptions C80_season_with_gap.
(** winter as a season: December, January, February; a record from autumn to the following January *)
Example C80_met : season_day (Some [12; 1; 2]) 0 /\ ~ season_day (Some [12; 1; 2]) 100 /\ season_day (Some [12; 1; 2]) 340.
Proof. unfold season_day. cbn [season_months]. change (month_of_day 0) with 1. change (month_of_day 100) with 4. change (month_of_day 340) with 12. cbn. lia. Qed.

(** ** C82 *)
Definition all_nan (s : series xr) : Prop := forall t v, In (t, v) s -> v = NaN.
Lemma lookup_pair (s : series xr) t v : lookup t s = Some v -> In (t, v) s.
Proof. induction s as [|[u w] s IH]; cbn; [discriminate|]. destruct (Z.eqb_spec u t) as [->|]; [intro H; injection H as ->; auto|auto]. Qed.
Lemma op_nan (f : xr -> xr -> xr) a b : (all_nan a /\ (forall y, f NaN y = NaN)) \/ (all_nan b /\ (forall x, f x NaN = NaN)) -> all_nan (series_op f a b).
Proof.
  intros H t v I. unfold series_op in I. destruct (same_labels (index a) (index b)) eqn:SL.
  - apply in_combine_r in I. apply in_map_iff in I as ([x y] & <- & I). cbn [fst snd]. destruct H as [[A F]|[A F]].
    + apply in_combine_l in I. unfold values in I. apply in_map_iff in I as ([u w] & E & I). cbn [snd] in E. subst w. rewrite (A _ _ I). apply F.
    + apply in_combine_r in I. unfold values in I. apply in_map_iff in I as ([u w] & E & I). cbn [snd] in E. subst w. rewrite (A _ _ I). apply F.
  - apply in_map_iff in I as (u & E & _). injection E as <- E. subst v.
    destruct (lookup u a) as [x|] eqn:Ea; [|reflexivity]. destruct (lookup u b) as [y|] eqn:Eb; [|reflexivity].
    destruct H as [[A F]|[A F]]; [rewrite (A _ _ (lookup_pair _ _ _ Ea))|rewrite (A _ _ (lookup_pair _ _ _ Eb))]; apply F.
Qed.
Lemma add_nan x : n_add x NaN = NaN. Proof. destruct x; reflexivity. Qed.
Lemma div_nan x : n_div x NaN = NaN. Proof. destruct x; reflexivity. Qed.
Lemma sat_nan : saturation_x NaN = NaN.
Proof. unfold saturation_x, vapor_pressure1. unfold c_zero. rewrite !lit_xr by lia. reflexivity. Qed.
Lemma dewpoint_nan e linear tmin temp a0 a1 kr h : all_nan temp -> dewpoint_humidity saturation_x wave_x e linear tmin (Some temp) a0 a1 kr = Ok h -> all_nan h.
Proof.
  intros A H. unfold dewpoint_humidity in H. destruct (distribute_equally e _ false) as [td|x]; [|discriminate H]. cbn [bind] in H.
  match type of H with bind ?m _ = _ => destruct m as [td2|x]; [|discriminate H] end. cbn [bind] in H.
  destruct (negb _); [discriminate H|]. injection H as <-. intros t v I. apply in_map_iff in I as ([[u x] [u2 y]] & E & I). apply in_combine_l in I.
  cbn [fst snd] in E. rewrite (A _ _ I), sat_nan, div_nan in E. congruence.
Qed.
Lemma preserve_nan e dd s h : all_nan s -> preserve_mean e dd s = Ok h -> all_nan h.
Proof.
  intros A H. unfold preserve_mean in H. destruct (fcol "hum" dd); [|discriminate H]. cbn [bind] in H.
  destruct (distribute_equally e _ false) as [bias|]; [|discriminate H]. cbn [bind] in H. injection H as <-.
  intros t v I. apply in_map_iff in I as ([u x] & E & I). cbn [fst snd] in E. rewrite (A _ _ I) in E. injection E as <- <-. reflexivity.
Qed.
Lemma sub_nan_l y : n_sub NaN y = NaN. Proof. reflexivity. Qed.
Lemma humidity_nan e dd method temp a0 a1 kr mhp keep h : In method ["minimal"; "dewpoint_regression"; "linear_dewpoint_variation"; "min_max"]%string ->
  all_nan temp -> disaggregate_humidity e dd method (Some temp) a0 a1 kr mhp keep = Ok h -> all_nan h.
Proof.
  intros M A H. unfold disaggregate_humidity, disaggregate_humidity_gen in H. destruct (negb _); [discriminate H|].
  destruct (raw_humidity _ _ _ _ _ _ _ _ _ _) as [r|x] eqn:R; [|discriminate H]. cbn [bind] in H.
  assert (AR : all_nan r).
  { unfold raw_humidity in R. cbn [In] in M. destruct M as [<-|[<-|[<-|[<-|[]]]]]; cbn [String.eqb Ascii.eqb Bool.eqb orb] in R.
    - destruct (fcol "tmin" dd); [|discriminate R]. cbn [bind] in R. exact (dewpoint_nan _ _ _ _ _ _ _ _ A R).
    - destruct a0, a1; try discriminate R. destruct (fcol "tmin" dd); [|discriminate R]. cbn [bind] in R. exact (dewpoint_nan _ _ _ _ _ _ _ _ A R).
    - destruct a0, a1; try discriminate R. destruct (fcol "tmin" dd); [|discriminate R]. cbn [bind] in R. exact (dewpoint_nan _ _ _ _ _ _ _ _ A R).
    - destruct (assoc "hum_min" (f_cols dd)), (assoc "hum_max" (f_cols dd)); try discriminate R.
      repeat (match type of R with bind ?m _ = _ => destruct m; [|discriminate R] end; cbn [bind] in R).
      injection R as <-. apply op_nan. right. split; [|exact add_nan]. apply op_nan. left. split; [|reflexivity]. apply op_nan. left. split; [|reflexivity]. apply op_nan. left. split; [exact A|reflexivity]. }
  destruct (if keep then _ else _) as [r2|x] eqn:K; [|discriminate H]. cbn [bind] in H. injection H as <-.
  assert (A2 : all_nan r2) by (destruct keep; [exact (preserve_nan _ _ _ _ AR K)|injection K as <-; exact AR]).
  intros t v I. apply in_map_iff in I as ([u x] & E & I). cbn [fst snd] in E. rewrite (A2 _ _ I) in E. injection E as <- <-. reflexivity.
Qed.
Lemma align_nan s idx : all_nan s -> Forall (eq NaN) (align s idx).
Proof.
  intro A. apply Forall_forall. intros x Hx. unfold align in Hx. apply in_map_iff in Hx as (t & E & _). destruct (lookup t s) eqn:L; [|exact E].
  rewrite (A _ _ (lookup_pair _ _ _ L)) in E. exact E.
Qed.
(** with an hourly temperature column without values the call succeeds and writes no values *)
Theorem C82_humidity_before_temperature e q st method keep d st' :
  In method ["minimal"; "dewpoint_regression"; "linear_dewpoint_variation"; "min_max"]%string ->
  s_disagg st = Some d -> (forall v, assoc "temp" (f_cols d) = Some v -> Forall (eq NaN) v) ->
  st_humidity e q st method keep = (st', None) ->
  forall v, hourly_column st' "hum" = Some v -> Forall (eq NaN) v.
Proof.
  intros M E TN H v HV. unfold st_humidity in H. destruct (daily_frame st) as [dd|x]; [|discriminate H]. rewrite E in H. cbn [bind] in H.
  unfold fcol in H at 1. destruct (assoc "temp" (f_cols d)) as [tv|] eqn:AT; [|discriminate H]. cbn [bind] in H.
  destruct (disaggregate_humidity _ _ _ _ _ _ _ _ _) as [h|x] eqn:DH; [|discriminate H]. cbn [finish] in H.
  assert (AH : all_nan h).
  { eapply humidity_nan; [exact M| |exact DH]. intros t x I. apply in_combine_r in I. specialize (TN tv eq_refl). rewrite Forall_forall in TN. symmetry. apply TN, I. }
  assert (G : forall vals, Forall (eq NaN) vals -> hourly_column (with_disagg st (Some (put_column "hum" vals d))) "hum" = Some v -> Forall (eq NaN) v).
  { intros vals FV HC. unfold hourly_column in HC. cbn [with_disagg s_disagg] in HC.
    destruct (in_dec string_dec "hum"%string (map fst (f_cols d))) as [I|NI].
    - rewrite put_assoc in HC by exact I. injection HC as <-. exact FV.
    - exfalso. apply NI. rewrite <- (put_names "hum" vals d). apply assoc_in in HC. apply (in_map fst) in HC. exact HC. }
  unfold put_series in H. rewrite E in H. destruct (same_labels _ _).
  - injection H as <-. apply (G (values h)); [|exact HV]. apply Forall_forall. intros x Hx. unfold values in Hx. apply in_map_iff in Hx as ([t y] & Ey & I). cbn [snd] in Ey. subst y. symmetry. exact (AH _ _ I).
  - destruct (has_dup _); [discriminate H|]. injection H as <-. apply (G (align h (f_index d))); [|exact HV]. apply align_nan, AH.
Qed.
Print Assumptions C82_humidity_before_temperature.
(** directly after the assignment of daily data this is the case, and the call with 'minimal' succeeds *)
Theorem C82_silent e q st f st1 : frame_ok f -> p_freq f = false -> set_daily e st (VFrame f) = (st1, None) ->
  (exists v, assoc "tmin" (f_cols (p_data f)) = Some v) ->
  exists st2 v, st_humidity e q st1 "minimal" false = (st2, None) /\ hourly_column st2 "hum" = Some v /\ Forall (eq NaN) v.
Proof.
  intros FO PF H (v & AV). destruct (C53_gap_free e st f st1 FO (or_introl PF) H) as (d0 & n & df & N0 & D1 & D2 & _ & _ & _ & AC & D6 & _).
  specialize (AC _ _ AV). set (tm := map _ _) in AC.
  assert (RD : ready st1 d0 n df).
  { split; [exact N0|]. split; [exact D1|]. split; [exact D2|]. eexists. split; [exact D6|]. split; [reflexivity|]. cbn [f_cols]. rewrite map_map. cbn [fst]. apply map_id. }
  assert (HC : has_column df "tmin" tm) by (split; [exact AC|unfold tm; rewrite map_length, D2; reflexivity]).
  assert (HT : fcol "temp" (Build_dframe (hours_index d0 n) (map (fun c => (c, repeat NaN (24 * n))) hourly_names)) = Ok (map (fun t => (t, NaN)) (hours_index d0 n))).
  { unfold fcol. cbn [f_cols hourly_names map assoc String.eqb Ascii.eqb Bool.eqb f_index]. f_equal.
    assert (G : forall l : list Z, combine l (repeat NaN (length l)) = map (fun t => (t, NaN)) l) by (clear; induction l as [|t l IH]; [reflexivity|cbn; f_equal; exact IH]).
    rewrite <- G, hours_length, (Nat.mul_comm n 24). reflexivity. }
  destruct (column_daily df d0 n "tmin" tm (conj N0 D2) HC) as [FC LT].
  assert (exists h, disaggregate_humidity e df "minimal" (Some (map (fun t => (t, NaN)) (hours_index d0 n))) (q_a0 q) (q_a1 q) (q_kr q) (q_mhp q) false = Ok h /\ index h = hours_index d0 n) as (h & DH & IH).
  { unfold disaggregate_humidity, disaggregate_humidity_gen. cbn [existsb String.eqb Ascii.eqb Bool.eqb orb negb].
    rewrite (raw_minimal e df d0 n tm (fun _ => NaN) _ _ _ _ (conj N0 D2) HC).
    cbn [bind]. eexists. split; [reflexivity|]. unfold index. rewrite !map_map. cbn [fst]. apply map_id. }
  destruct (put_series_ready st1 d0 n df "hum" h RD) as (st2 & P & _ & HV & _); [cbn; tauto|exact IH|].
  assert (SH : st_humidity e q st1 "minimal" false = (st2, None)).
  { unfold st_humidity, daily_frame. rewrite D1, D6. cbn [bind]. rewrite HT. cbn [bind]. change (@Some (series xr)) with (@Some (list (Z * xr))). rewrite DH. exact P. }
  exists st2, (values h). split; [exact SH|]. split; [exact HV|].
  eapply C82_humidity_before_temperature; [left; reflexivity|exact D6| |exact SH|exact HV].
  cbn [f_cols hourly_names map assoc String.eqb Ascii.eqb Bool.eqb]. intros w E. assert (w = repeat NaN (24 * n)) by congruence. subst w. clear. generalize (24 * n)%nat. intro k. induction k; cbn [repeat]; constructor; [reflexivity|assumption].
Qed.
Print Assumptions C82_silent.

(** ** C83 *)
Theorem C83_shift_ignored e q st method u s1 s2 master d1 d2 : method <> "cascade"%string ->
  st_precipitation e q st method u s1 master d1 = st_precipitation e q st method u s2 master d2.
Proof.
  intro N. unfold st_precipitation. destruct (String.eqb_spec method "cascade"); [contradiction|]. reflexivity.
Qed.
Print Assumptions C83_shift_ignored.
Lemma filter_keep {A} (f : A -> bool) l : (forall x, In x l -> f x = true) -> filter f l = l.
Proof. induction l as [|x l IH]; intro H; [reflexivity|]. cbn [filter]. rewrite (H x (or_introl eq_refl)). f_equal. apply IH. intros y Hy. apply H. right. exact Hy. Qed.
(** with one season that covers the record, a shift by k hours moves the hourly column of the cascade by k hours *)
Theorem C83_shift_acts e q st d0 n dd amounts mo arg u k master draws st0 : has_index_to_datetime e = false ->
  ready st d0 n dd -> has_column dd "precip" amounts -> Forall amount_ok amounts -> (2 <= n)%nat ->
  q_months q = Some [mo] -> q_casc q = Some [arg] -> NoDup (season_months mo) -> (forall i, (i < n)%nat -> season_day mo (d0 + Z.of_nat i)) ->
  st_precipitation e q st "cascade" u 0 master draws = (st0, None) ->
  exists st1 v0 v1, st_precipitation e q st "cascade" u k master draws = (st1, None) /\
    hourly_column st0 "precip" = Some v0 /\ hourly_column st1 "precip" = Some v1 /\ length v0 = (24 * n)%nat /\
    forall p, (p < 24 * n)%nat -> nth_error v1 p =
      if (0 <=? Z.of_nat p - k) && (Z.of_nat p - k <? Z.of_nat (24 * n)) then nth_error v0 (Z.to_nat (Z.of_nat p - k)) else Some NaN.
Proof.
  intros T RD HC AO N2 QM QC ND SD H. destruct (ready_column _ _ _ _ _ _ RD HC) as [DC L]. subst n.
  assert (NE : season_months mo <> []). { intro Q. specialize (SD O ltac:(lia)). unfold season_day in SD. rewrite Q in SD. exact SD. }
  assert (FX : filter (fun p => mem (month_of (fst p)) (season_months mo)) (daily d0 amounts) = daily d0 amounts).
  { apply filter_keep. intros [t v] I. apply daily_In in I as (i & Hi & ->). cbn [fst]. rewrite month_midnight. apply mem_In, SD. apply nth_error_Some. congruence. }
  assert (RDc := RD). destruct RDc as (N0 & RD2 & RD3 & d & RD4 & RD5 & RD6).
  assert (STEP : forall j, st_cascade e q st u j draws =
     let* data := disagg_prec_cascade e (daily d0 amounts) arg true 9 j (draws 0%nat) 0 in
     match data with None => Err AttributeError | Some data => overlay (map (fun t => (t, NaN)) (hours_index d0 (length amounts))) data end).
  { intro j. unfold st_cascade. rewrite RD4, RD5, QM, QC. cbn [combine]. rewrite DC. cbn [bind st_seasons]. rewrite (season_subset d0 amounts mo NE ND), FX. cbn [bind].
    assert (LL : Nat.ltb 1 (length (daily d0 amounts)) = true) by (apply Nat.ltb_lt; rewrite daily_length; lia). rewrite LL. cbn [disagg_prec].
    destruct (disagg_prec_cascade e (daily d0 amounts) arg true 9 j (draws 0%nat) 0) as [[data|]|x]; cbn [bind]; try reflexivity. destruct (overlay _ data); reflexivity. }
  assert (OV : forall data, map fst data = hours_index d0 (length amounts) -> overlay (map (fun t => (t, NaN)) (hours_index d0 (length amounts))) data = Ok data).
  { intros data HD. unfold overlay. replace (forallb _ _) with true.
    - rewrite map_map. cbn [fst snd]. f_equal. symmetry. exact (series_as_map data _ HD (hours_nodup _ _)).
    - symmetry. apply forallb_forall. intros t Ht. apply mem_In. unfold index in *. rewrite map_map. cbn [fst]. rewrite map_id, <- HD. exact Ht. }
  unfold st_precipitation in H |- *. cbn [String.eqb Ascii.eqb Bool.eqb] in H |- *. rewrite STEP in H |- *.
  destruct (disagg_prec_cascade e (daily d0 amounts) arg true 9 0 (draws 0%nat) 0) as [[data|]|x] eqn:E; cbn [bind] in H; try discriminate H.
  assert (HD : map fst data = hours_index d0 (length amounts)).
  { rewrite <- FX in E. destruct (season_result e d0 amounts mo arg _ data T AO NE ND E) as (d1 & m & HD & RNG & _). rewrite HD.
    assert (Q : forall x, d1 <= x < d1 + Z.of_nat m <-> d0 <= x < d0 + Z.of_nat (length amounts)).
    { intro x. rewrite RNG. split; [intros (i & Hi & -> & _); lia|]. intro B. exists (Z.to_nat (x - d0)). rewrite Z2Nat.id by lia.
      split; [lia|]. split; [lia|]. replace x with (d0 + Z.of_nat (Z.to_nat (x - d0))) by lia. apply SD. lia. }
    pose proof (Q d0). pose proof (Q d1). pose proof (Q (d0 + Z.of_nat (length amounts) - 1)). pose proof (Q (d1 + Z.of_nat m - 1)).
    assert (d1 = d0) by lia. assert (m = length amounts) by lia. subst. reflexivity. }
  rewrite (OV data HD) in H. cbn [finish] in H.
  destruct (put_series_ready st d0 (length amounts) dd "precip" data RD) as (st2 & P & _ & C & _); [cbn; tauto|exact HD|].
  assert (st2 = st0) by congruence. subst st2.
  destruct (C06_shift e (daily d0 amounts) arg true 9 k (draws 0%nat) 0 data E) as (dk & Ek & IK & VK). rewrite Ek. cbn [bind].
  assert (HDk : map fst dk = hours_index d0 (length amounts)) by (rewrite IK; exact HD). rewrite (OV dk HDk). cbn [finish].
  destruct (put_series_ready st d0 (length amounts) dd "precip" dk RD) as (st1 & P1 & _ & C1 & _); [cbn; tauto|exact HDk|].
  assert (LD : length data = (24 * length amounts)%nat). { rewrite <- (map_length fst), HD, hours_length. lia. }
  exists st1, (values data), (values dk). split; [exact P1|]. split; [exact C|]. split; [exact C1|]. split; [unfold values; rewrite map_length; exact LD|].
  intros p Hp. specialize (VK p ltac:(lia)). rewrite LD in VK. exact VK.
Qed.
Print Assumptions C83_shift_acts.
Theorem C83_unknown_method e q st method u s master d : ~ In method ["equal"; "cascade"; "masterstation"]%string ->
  st_precipitation e q st method u s master d = (st, Some UnboundLocalError).
Proof.
  intro N. unfold st_precipitation. destruct (String.eqb_spec method "equal") as [->|]; [exfalso; apply N; left; reflexivity|].
  destruct (String.eqb_spec method "cascade") as [->|]; [exfalso; apply N; right; left; reflexivity|].
  destruct (String.eqb_spec method "masterstation") as [->|]; [exfalso; apply N; right; right; left; reflexivity|]. reflexivity.
Qed.
Print Assumptions C83_unknown_method.
(** current pandas: the master station method always fails *)
Theorem C83_master_current e q st d0 n dd amounts u s master d : has_iteritems e = false -> ready st d0 n dd -> has_column dd "precip" amounts ->
  st_precipitation e q st "masterstation" u s master d = (st, Some AttributeError).
Proof.
  intros T RD HC. destruct (ready_column _ _ _ _ _ _ RD HC) as [DC L]. assert (NE : amounts <> []) by (destruct RD as (N0 & _); intros ->; apply N0; symmetry; exact L).
  unfold st_precipitation. cbn [String.eqb Ascii.eqb Bool.eqb]. rewrite DC. cbn [bind]. rewrite T. destruct master as [m|]; [|reflexivity].
  rewrite master_modern by assumption. reflexivity.
Qed.
Print Assumptions C83_master_current.

(** ** C84 *)
(** what a failed calculation of the cascade statistics leaves in the record: zeros instead of missing amounts, unless it
    failed before that *)
Definition zeros_for_missing (v : list xr) : list xr := map (fun x => match x with NaN => Fin 0 | _ => x end) v.
Definition record_after (first : option (list Z)) (d : dframe xr) : dframe xr :=
  match first, assoc "precip" (f_cols d) with
  | Some [], _ | _, None => d
  | _, Some v => put_column "precip" (zeros_for_missing v) d
  end.
Lemma fill_values idx v : (length v <= length idx)%nat -> values (fillna0 (combine idx v)) = zeros_for_missing v.
Proof.
  revert v. induction idx as [|t idx IH]; intros [|x v] L; try reflexivity; [cbn in L; lia|]. cbn [combine fillna0 values map zeros_for_missing]. f_equal.
  - cbn [snd]. destruct x; reflexivity.
  - apply IH. cbn in L. lia.
Qed.
Theorem C84_failed_statistics cf mb fc lr pc e q o q' x : run_stat cf mb fc lr pc e q o = (q', Some x) ->
  match o with
  | QData _ | QWind | QTemp => q' = q
  | QPrecip months _ _ =>
      q_months q' = Some (match months with None => [Some [1; 2; 3; 4; 5; 6; 7; 8; 9; 10; 11; 12]] | Some l => l end) /\
      q_casc q' = q_casc q /\
      match q_data q with
      | None => q_data q' = None
      | Some d => (forall v, assoc "precip" (f_cols d) = Some v -> (length v <= length (f_index d))%nat) ->
                  q_data q' = Some (record_after (match months with Some (m :: _) => m | _ => None end) d)
      end
  | QHum => q' = q \/ (q_kr q' = Some 12 /\ q_a0 q' <> None /\ q_a1 q' <> None /\ q_mhp q' = q_mhp q /\ q_data q' = q_data q)
  | QRad _ _ _ => q_data q' = q_data q /\ q_months q' = q_months q /\ q_casc q' = q_casc q /\ q_mhp q' = q_mhp q
  end.
Proof.
  destruct o as [v|m avg p| | | |d l h]; cbn [run_stat].
  - unfold set_data. destruct v as [f|]; [|intro H; congruence]. destruct (negb (p_datetime f)); [intro H; congruence|]. destruct (negb _); [intro H; congruence|discriminate].
  - assert (P : forall ms, (match ms with [] => (with_precip q (q_data q) (Some ms) (Some []), None) | Some [] :: _ => (with_precip q (q_data q) (Some ms) (q_casc q), Some UnboundLocalError)
        | _ :: _ => match q_data q with None => (with_precip q (q_data q) (Some ms) (q_casc q), Some AttributeError) | Some d =>
          match assoc "precip" (f_cols d) with None => (with_precip q (q_data q) (Some ms) (q_casc q), Some KeyError) | Some v =>
          match build_casc (pc p) p true 9 avg (Some ms) {| arrs := []; objs := [] |} (combine (f_index d) v) with
          | Err x => (with_precip q (Some (put_column "precip" (values (fillna0 (combine (f_index d) v))) d)) (Some ms) (q_casc q), Some x)
          | Ok (h, obs, out) => (with_precip q (Some (put_column "precip" (values obs) d)) (Some ms) (Some (map (season_arg h) out)), None) end end end end) = (q', Some x) ->
      q_months q' = Some ms /\ q_casc q' = q_casc q /\
      match q_data q with
      | None => q_data q' = None
      | Some d => (forall v, assoc "precip" (f_cols d) = Some v -> (length v <= length (f_index d))%nat) -> q_data q' = Some (record_after (match ms with m :: _ => m | [] => None end) d)
      end).
    { intros ms H. destruct ms as [|m1 ms]; [discriminate|].
      assert (Q : m1 = Some [] \/ m1 <> Some []) by (destruct m1 as [[|]|]; [left; reflexivity|right; discriminate..]). destruct Q as [->|NE].
      - injection H as <- _. cbn [with_precip q_months q_casc q_data]. repeat split. destruct (q_data q); [intros _; reflexivity|reflexivity].
      - assert (H2 : match q_data q with None => (with_precip q (q_data q) (Some (m1 :: ms)) (q_casc q), Some AttributeError) | Some d =>
          match assoc "precip" (f_cols d) with None => (with_precip q (q_data q) (Some (m1 :: ms)) (q_casc q), Some KeyError) | Some v =>
          match build_casc (pc p) p true 9 avg (Some (m1 :: ms)) {| arrs := []; objs := [] |} (combine (f_index d) v) with
          | Err x => (with_precip q (Some (put_column "precip" (values (fillna0 (combine (f_index d) v))) d)) (Some (m1 :: ms)) (q_casc q), Some x)
          | Ok (h, obs, out) => (with_precip q (Some (put_column "precip" (values obs) d)) (Some (m1 :: ms)) (Some (map (season_arg h) out)), None) end end end = (q', Some x)).
        { destruct m1 as [[|]|]; [contradiction|exact H..]. } clear H. rename H2 into H.
        destruct (q_data q) as [d|] eqn:ED; [|injection H as <- _; cbn [with_precip q_months q_casc q_data]; repeat split].
        destruct (assoc "precip" (f_cols d)) as [v|] eqn:EV.
        + destruct (build_casc _ _ _ _ _ _ _ _) as [[[h obs] out]|y]; [discriminate|]. injection H as <- _. cbn [with_precip q_months q_casc q_data]. repeat split.
          intro LV. unfold record_after. rewrite EV. rewrite fill_values by (apply LV; reflexivity). destruct m1 as [[|]|]; [contradiction|reflexivity..].
        + injection H as <- _. cbn [with_precip q_months q_casc q_data]. repeat split. intros _. unfold record_after. rewrite EV. destruct m1 as [[|]|]; reflexivity. }
    unfold calc_precipitation_stats. intro H. destruct m as [l|]; [exact (P l H)|exact (P [Some all_months] H)].
  - unfold calc_wind_stats. destruct (bind _ _) as [[[a b] s]|y]; [discriminate|]. intro H. congruence.
  - unfold calc_humidity_stats. destruct (let* d := match q_data q with None => _ | _ => _ end in _) as [[a b]|y]; [|intro H; left; congruence].
    destruct (bind _ _); [discriminate|]. intro H. injection H as <- _. right. repeat split; discriminate.
  - unfold calc_temperature_stats. destruct (bind _ _) as [[a b]|y]; [discriminate|]. intro H. congruence.
  - unfold st_radiation_stats. destruct (calc_radiation_stats _ _ _ _ _ _ _ _ _ _ _) as [g err]. intro H. injection H as <- _. repeat split.
Qed.
Print Assumptions C84_failed_statistics.
(** months for two seasons, statistics for one: the station still disaggregates, and days that only
    belong to the second season silently get no values *)
Example C84_met cf mb fc lr pc : exists q', run_stat cf mb fc lr pc modern ex_seasons (QPrecip (Some [Some [1]; Some [2]]) false (Fin 50)) = (q', Some AttributeError) /\
  q_months q' = Some [Some [1]; Some [2]] /\ q_casc q' = Some [COne ex_stats].
Proof. eexists. split; [reflexivity|]. split; reflexivity. Qed.
