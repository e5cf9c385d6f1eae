(** Seasonal cascade disaggregation at the station. *)
From Coq Require Import String ZArith List Bool Reals Sorted Permutation Lia Lra.
From Verif Require Import Py Num Cal Series Frame SpecBase TimeProofs IndexProofs DaysProofs InterpProofs TempProofs RadBC UtilModel CascadeModel PrecipModel SpecCascade
  CascadeProofs CascadeExact CascadeHours PropsCascade AggModel BuildProofs Trans UtilModel2
  SpecUtil SpecRad RadProofs SunProofs TempModel RadModel HumModel PropsHum WindModel StationModel SpecStation StationProofs StationDaily.
Import ListNotations.
Open Scope Z_scope.

Lemma cascade_needs_hours e (s : series xr) arg lvl shft draws pos out :
  disagg_prec_cascade e s arg true lvl shft draws pos = Ok (Some out) -> exists hours, hourly_index e (index s) = Ok hours.
Proof.
  unfold disagg_prec_cascade, disagg_prec_cascade_full. intro H. destruct (Nat.ltb (length s) 2); [discriminate H|].
  destruct (check_options _ _); [|discriminate H]. cbn [bind] in H.
  destruct (levels_from _ _ _ _ _ _ _ _ _) as [[[|v acc]|]|]; try discriminate H. cbn [bind] in H.
  rewrite zero_missing_index in H. destruct (hourly_index e (index s)) as [h|]; [eauto|discriminate H].
Qed.
(** days without a gap *)
Lemma hourly_index_block e idx hours : has_index_to_datetime e = false -> day_resolution idx = true -> StronglySorted Z.lt idx ->
  hourly_index e idx = Ok hours -> exists d1, idx = daily_index d1 (length idx).
Proof.
  intros T R SS H. set (f := {| p_datetime := true; p_freq := true; p_data := Build_dframe idx [] |}).
  assert (FO : frame_ok f) by (split; [intros c v []|intros _ _; exact SS]).
  destruct (fill_freq e f hours eq_refl FO T R (sorted_increasing idx SS) H) as (d0 & n & _ & A & _).
  exists d0. cbn [f p_data f_index] in A. rewrite A at 2. unfold daily_index. rewrite grid_length. exact A.
Qed.
Lemma daily_of_index (s : series xr) d1 : index s = daily_index d1 (length (index s)) -> s = daily d1 (values s).
Proof.
  intro H. unfold daily. assert (L : length (values s) = length (index s)) by (unfold values, index; rewrite !map_length; reflexivity).
  rewrite L, <- H. clear. unfold index, values. induction s as [|[t v] s IH]; [reflexivity|]. cbn. f_equal. exact IH.
Qed.

(** the subset of a season *)
Lemma daily_sorted {A} d0 (l : list A) : StronglySorted Z.lt (map fst (daily d0 l)).
Proof. rewrite daily_fst. apply grid_sorted. reflexivity. Qed.
Lemma season_subset d0 (amounts : list xr) mo : season_months mo <> [] -> NoDup (season_months mo) ->
  seasonal_subset (daily d0 amounts) mo = Ok (filter (fun p => mem (month_of (fst p)) (season_months mo)) (daily d0 amounts)).
Proof.
  intros NE ND. transitivity (seasonal_subset (daily d0 amounts) (Some (season_months mo))); [destruct mo; reflexivity|].
  apply seasonal_exact; [exact NE|exact ND|apply daily_sorted].
Qed.
Lemma daily_In {A} d0 (l : list A) t v : In (t, v) (daily d0 l) <-> exists i, nth_error l i = Some v /\ t = (d0 + Z.of_nat i) * us_day.
Proof.
  revert d0. induction l as [|a l IH]; intro d0.
  - split; [intros []|intros (i & H & _); destruct i; discriminate H].
  - rewrite daily_cons. cbn [In]. rewrite IH. split.
    + intros [E|(i & H & ->)]; [exists O; injection E as <- <-; split; [reflexivity|f_equal; lia]|exists (S i); split; [exact H|f_equal; lia]].
    + intros ([|i] & H & ->); [left; cbn in H; injection H as ->; f_equal; f_equal; lia|right; exists i; split; [exact H|f_equal; lia]].
Qed.
Lemma month_midnight d : month_of (d * us_day) = month_of_day d.
Proof. unfold month_of. rewrite day_start_date. reflexivity. Qed.

(** two different days of the season in a record of n days *)
Definition two_days (mo : option (list Z)) (d0 : Z) (n : nat) : Prop :=
  exists i j, (i < j < n)%nat /\ season_day mo (d0 + Z.of_nat i) /\ season_day mo (d0 + Z.of_nat j).
Lemma two_in_list {A} (a b : A) l : a <> b -> In a l -> In b l -> (1 < length l)%nat.
Proof. destruct l as [|x [|y l]]; cbn; intros N Ha Hb; [destruct Ha|destruct Ha as [->|[]], Hb as [->|[]]; congruence|lia]. Qed.
Lemma two_days_length d0 (amounts : list xr) mo :
  two_days mo d0 (length amounts) <-> (1 < length (filter (fun p => mem (month_of (fst p)) (season_months mo)) (daily d0 amounts)))%nat.
Proof.
  split.
  - intros (i & j & (Hij & Hj) & Mi & Mj).
    destruct (nth_error amounts i) as [a|] eqn:Ea; [|apply nth_error_None in Ea; lia].
    destruct (nth_error amounts j) as [b|] eqn:Eb; [|apply nth_error_None in Eb; lia].
    apply (two_in_list ((d0 + Z.of_nat i) * us_day, a) ((d0 + Z.of_nat j) * us_day, b)).
    + intro E. injection E as E _. unfold us_day in E. lia.
    + apply filter_In. split; [apply daily_In; eauto|]. cbn [fst]. rewrite month_midnight. apply mem_In, Mi.
    + apply filter_In. split; [apply daily_In; eauto|]. cbn [fst]. rewrite month_midnight. apply mem_In, Mj.
  - intro H. set (sub := filter _ _) in *. assert (SS : StronglySorted Z.lt (map fst sub)) by (apply filter_sorted_rows, daily_sorted).
    destruct sub as [|[t1 v1] [|[t2 v2] r]] eqn:E; cbn in H; try lia. fold sub in E.
    assert (I1 : In (t1, v1) sub) by (rewrite E; left; reflexivity). assert (I2 : In (t2, v2) sub) by (rewrite E; right; left; reflexivity).
    apply filter_In in I1 as [I1 M1]. apply filter_In in I2 as [I2 M2]. apply daily_In in I1 as (i & Hi & ->). apply daily_In in I2 as (j & Hj & ->).
    cbn [fst] in M1, M2. rewrite month_midnight in M1, M2. apply mem_In in M1, M2. exists i, j.
    cbn [map fst] in SS. apply StronglySorted_inv in SS as [_ F]. inversion F as [|? ? LT _]; subst. unfold us_day in LT.
    assert (j < length amounts)%nat by (apply nth_error_Some; congruence). repeat split; try assumption; lia.
Qed.

(** one season: what [disagg_prec] returns *)
Definition day_result (a : xr) (hs : list xr) : Prop :=
  match a with
  | Fin r => exists xs, hs = map Fin xs /\ length xs = 24%nat /\ Forall (fun h => 0 <= h)%R xs /\ Rsum xs = r
  | _ => hs = repeat NaN 24
  end.
Lemma season_result e d0 amounts mo arg draws data : has_index_to_datetime e = false -> Forall amount_ok amounts ->
  season_months mo <> [] -> NoDup (season_months mo) ->
  disagg_prec_cascade e (filter (fun p => mem (month_of (fst p)) (season_months mo)) (daily d0 amounts)) arg true 9 0 draws 0 = Ok (Some data) ->
  exists d1 m, map fst data = hours_index d1 m /\
    (forall d, d1 <= d < d1 + Z.of_nat m <-> (exists i, (i < length amounts)%nat /\ d = d0 + Z.of_nat i /\ season_day mo d)) /\
    (forall i a, nth_error amounts i = Some a -> season_day mo (d0 + Z.of_nat i) -> day_result a (values_on (d0 + Z.of_nat i) data)).
Proof.
  intros T AO NE ND H. set (sub := filter _ _) in *.
  assert (SS : StronglySorted Z.lt (index sub)) by (apply filter_sorted_rows, daily_sorted).
  assert (IN : forall t v, In (t, v) sub <-> exists i, nth_error amounts i = Some v /\ t = (d0 + Z.of_nat i) * us_day /\ season_day mo (d0 + Z.of_nat i)).
  { intros t v. unfold sub. rewrite filter_In, daily_In. cbn [fst]. rewrite mem_In. split.
    - intros ((i & Hi & ->) & M). rewrite month_midnight in M. eauto.
    - intros (i & Hi & -> & M). split; [eauto|]. rewrite month_midnight. exact M. }
  assert (R : day_resolution (index sub) = true).
  { unfold day_resolution. apply forallb_forall. intros t Ht. apply in_map_iff in Ht as ([t' v] & <- & Hv). apply IN in Hv as (i & _ & -> & _).
    cbn [fst]. rewrite Z.mod_mul by (unfold us_day; lia). reflexivity. }
  destruct (cascade_needs_hours _ _ _ _ _ _ _ _ H) as [hours HH].
  destruct (hourly_index_block e _ _ T R SS HH) as [d1 BL]. pose proof (daily_of_index sub d1 BL) as DS. rewrite DS in H.
  assert (VA : Forall amount_ok (values sub)).
  { apply Forall_forall. intros v Hv. apply in_map_iff in Hv as ([t v'] & <- & Hv). apply IN in Hv as (i & Hi & _). rewrite Forall_forall in AO. apply AO. eapply nth_error_In, Hi. }
  exists d1, (length (values sub)). split; [exact (C05_hourly_time_stamps e d1 _ _ _ _ _ _ _ H)|]. split.
  - intro d. split.
    + intro B. assert (HI : In (d * us_day) (index sub)).
      { rewrite BL. unfold daily_index. apply grid_In. exists (Z.to_nat (d - d1)). assert (length (index sub) = length (values sub)) by (unfold index, values; rewrite !map_length; reflexivity). split; [lia|]. rewrite Z2Nat.id by lia. ring. }
      apply in_map_iff in HI as ([t v] & E & Hv). cbn in E. subst t. apply IN in Hv as (i & Hi & E & M). exists i.
      assert (d = d0 + Z.of_nat i) by (unfold us_day in E; lia). subst d. split; [apply nth_error_Some; congruence|]. split; [reflexivity|exact M].
    + intros (i & Hi & -> & M). destruct (nth_error amounts i) as [a|] eqn:Ea; [|apply nth_error_None in Ea; lia].
      assert (HI : In ((d0 + Z.of_nat i) * us_day, a) sub) by (apply IN; eauto). rewrite DS in HI. apply daily_In in HI as (j & Hj & E).
      assert (j < length (values sub))%nat by (apply nth_error_Some; congruence). unfold us_day in E. lia.
  - intros i a Hi M. assert (HI : In ((d0 + Z.of_nat i) * us_day, a) sub) by (apply IN; eauto). rewrite DS in HI. apply daily_In in HI as (j & Hj & E).
    assert (EQ : d0 + Z.of_nat i = d1 + Z.of_nat j) by (unfold us_day in E; lia). rewrite EQ.
    assert (A : amount_ok a) by (rewrite Forall_forall in AO; apply AO; eapply nth_error_In, Hi).
    destruct A as [->|(r & -> & Hr)]; cbn [day_result].
    + exact (cascade_missing_days e d1 _ _ _ _ _ _ H j NaN Hj eq_refl).
    + exact (cascade_exact_days e d1 _ _ _ _ _ _ VA H j r Hj).
Qed.

(** writing a season into the hourly series *)
Lemma overlay_hours d0 n (g : Z -> xr) data out : overlay (map (fun t => (t, g t)) (hours_index d0 n)) data = Ok out ->
  out = map (fun t => (t, match lookup t data with Some v => v | None => g t end)) (hours_index d0 n).
Proof. unfold overlay. destruct (forallb _ _); [|discriminate]. intro H. injection H as <-. rewrite map_map. reflexivity. Qed.
Lemma hours_In d0 n d h : (h < 24)%nat -> (In (stamp d h) (hours_index d0 n) <-> d0 <= d < d0 + Z.of_nat n).
Proof.
  intro Hh. unfold hours_index. rewrite grid_In. unfold stamp. split.
  - intros (k & Hk & E). unfold us_day, us_hour in E. lia.
  - intro B. exists (Z.to_nat ((d - d0) * 24 + Z.of_nat h)). split; [lia|]. rewrite Z2Nat.id by lia. unfold us_day, us_hour. lia.
Qed.
Lemma overlay_day d0 n (g : Z -> xr) data out d1 m i : (i < n)%nat -> map fst data = hours_index d1 m ->
  overlay (map (fun t => (t, g t)) (hours_index d0 n)) data = Ok out ->
  values_on (d0 + Z.of_nat i) out = if (d1 <=? d0 + Z.of_nat i) && (d0 + Z.of_nat i <? d1 + Z.of_nat m)
                                    then values_on (d0 + Z.of_nat i) data else values_on (d0 + Z.of_nat i) (map (fun t => (t, g t)) (hours_index d0 n)).
Proof.
  intros Hi HD H. rewrite (overlay_hours _ _ _ _ _ H), !values_on_map_hours by exact Hi.
  destruct (Z.leb_spec d1 (d0 + Z.of_nat i)) as [L|L], (Z.ltb_spec (d0 + Z.of_nat i) (d1 + Z.of_nat m)) as [U|U]; cbn [andb].
  - assert (exists g2, data = map (fun t => (t, g2 t)) (hours_index d1 m)) as (g2 & ->)
      by (eexists; exact (series_as_map data _ HD (hours_nodup _ _))).
    assert (V : values_on (d0 + Z.of_nat i) (map (fun t => (t, g2 t)) (hours_index d1 m)) = map (fun h => g2 (stamp (d0 + Z.of_nat i) h)) (seq 0 24)).
    { replace (d0 + Z.of_nat i) with (d1 + Z.of_nat (Z.to_nat (d0 + Z.of_nat i - d1))) by lia. apply values_on_map_hours. lia. }
    rewrite V. apply map_ext_in. intros h Hh. apply in_seq in Hh. rewrite (lookup_map_id g2) by (apply hours_In; lia). reflexivity.
  - apply map_ext_in. intros h Hh. apply in_seq in Hh. rewrite (proj2 (lookup_none (stamp (d0 + Z.of_nat i) h) data)); [reflexivity|].
    rewrite HD. rewrite hours_In by lia. lia.
  - apply map_ext_in. intros h Hh. apply in_seq in Hh. rewrite (proj2 (lookup_none (stamp (d0 + Z.of_nat i) h) data)); [reflexivity|].
    rewrite HD. rewrite hours_In by lia. lia.
  - apply map_ext_in. intros h Hh. apply in_seq in Hh. rewrite (proj2 (lookup_none (stamp (d0 + Z.of_nat i) h) data)); [reflexivity|].
    rewrite HD. rewrite hours_In by lia. lia.
Qed.

(** the loop *)
Lemma seasons_loop e d0 amounts u draws : has_index_to_datetime e = false -> Forall amount_ok amounts ->
  forall seasons k g out', (forall mo arg, In (mo, arg) seasons -> season_months mo <> [] /\ NoDup (season_months mo)) ->
  st_seasons e (daily d0 amounts) u 0 draws k seasons (map (fun t => (t, g t)) (hours_index d0 (length amounts))) = Ok out' ->
  exists g', out' = map (fun t => (t, g' t)) (hours_index d0 (length amounts)) /\
   forall i a, nth_error amounts i = Some a ->
     ((forall mo arg, In (mo, arg) seasons -> two_days mo d0 (length amounts) -> ~ season_day mo (d0 + Z.of_nat i)) /\
      values_on (d0 + Z.of_nat i) out' = values_on (d0 + Z.of_nat i) (map (fun t => (t, g t)) (hours_index d0 (length amounts)))) \/
     ((exists mo arg, In (mo, arg) seasons /\ two_days mo d0 (length amounts) /\ season_day mo (d0 + Z.of_nat i)) /\
      day_result a (values_on (d0 + Z.of_nat i) out')).
Proof.
  intros T AO. induction seasons as [|[mo arg] r IH]; intros k g out' WF H.
  - cbn [st_seasons] in H. injection H as <-. exists g. split; [reflexivity|]. intros i a Hi. left. split; [intros mo arg []|reflexivity].
  - cbn [st_seasons] in H. destruct (WF mo arg (or_introl eq_refl)) as [NE ND]. rewrite season_subset in H by assumption. cbn [bind] in H.
    set (sub := filter _ _) in *. pose proof (two_days_length d0 amounts mo) as TD. fold sub in TD.
    assert (WF' : forall mo arg, In (mo, arg) r -> season_months mo <> [] /\ NoDup (season_months mo)) by (intros; eapply WF; right; eassumption).
    destruct (Nat.ltb_spec 1 (length sub)) as [L|L].
    + cbn [disagg_prec] in H. destruct (disagg_prec_cascade e sub arg true 9 0 (draws k) 0) as [[data|]|] eqn:E; cbn [bind] in H; try discriminate H.
      destruct (overlay _ data) as [out1|] eqn:EO; cbn [bind] in H; [|discriminate H].
      destruct (season_result e d0 amounts mo arg _ data T AO NE ND E) as (d1 & m & HD & RNG & RES).
      pose proof (overlay_hours _ _ _ _ _ EO) as O1. rewrite O1 in H.
      destruct (IH (S k) (fun t => match lookup t data with Some v => v | None => g t end) out' WF' H) as (g' & G1 & G2).
      exists g'. split; [exact G1|]. intros i a Hi. assert (Li : (i < length amounts)%nat) by (apply nth_error_Some; congruence).
      pose proof (overlay_day d0 (length amounts) g data out1 d1 m i Li HD EO) as OD. rewrite O1 in OD.
      destruct (G2 i a Hi) as [[N V]|[(mo' & arg' & I & Td & S) V]].
      * destruct ((d1 <=? d0 + Z.of_nat i) && (d0 + Z.of_nat i <? d1 + Z.of_nat m)) eqn:B.
        -- right. apply andb_true_iff in B as [B1 B2]. apply Z.leb_le in B1. apply Z.ltb_lt in B2.
           destruct (proj1 (RNG (d0 + Z.of_nat i)) (conj B1 B2)) as (i' & _ & _ & S). split.
           ++ exists mo, arg. split; [left; reflexivity|]. split; [apply TD, L|exact S].
           ++ rewrite V, OD. apply RES; assumption.
        -- left. split; [|rewrite V; exact OD]. intros mo' arg' [E1|I] Td S; [|exact (N mo' arg' I Td S)].
           injection E1 as <- <-. assert (B' : d1 <= d0 + Z.of_nat i < d1 + Z.of_nat m) by (apply RNG; eauto).
           apply andb_false_iff in B. destruct B as [B|B]; [apply Z.leb_gt in B|apply Z.ltb_ge in B]; lia.
      * right. split; [|exact V]. exists mo', arg'. split; [right; exact I|]. split; assumption.
    + cbn [bind] in H. destruct (IH (S k) g out' WF' H) as (g' & G1 & G2). exists g'. split; [exact G1|]. intros i a Hi.
      destruct (G2 i a Hi) as [[N V]|[(mo' & arg' & I & Td & S) V]].
      * left. split; [|exact V]. intros mo' arg' [E1|I] Td S; [|exact (N mo' arg' I Td S)]. injection E1 as <- <-. apply TD in Td. lia.
      * right. split; [|exact V]. exists mo', arg'. split; [right; exact I|]. split; assumption.
Qed.

(** a season with a gap *)
Lemma seasons_gap e d0 amounts u shft draws : has_index_to_datetime e = false ->
  forall seasons k out mo arg a g b, In (mo, arg) seasons -> season_months mo <> [] -> NoDup (season_months mo) ->
  d0 <= a < g -> g < b < d0 + Z.of_nat (length amounts) -> season_day mo a -> season_day mo b -> ~ season_day mo g ->
  exists x, st_seasons e (daily d0 amounts) u shft draws k seasons out = Err x.
Proof.
  intros T. induction seasons as [|[mo0 arg0] r IH]; intros k out mo arg a g b IN NE ND H1 H2 Sa Sb Sg; [destruct IN|].
  cbn [st_seasons]. destruct IN as [E|IN].
  - injection E as -> ->. rewrite season_subset by assumption. cbn [bind]. set (sub := filter _ _).
    assert (TD : (1 < length sub)%nat).
    { apply two_days_length. exists (Z.to_nat (a - d0)), (Z.to_nat (b - d0)).
      replace (d0 + Z.of_nat (Z.to_nat (a - d0))) with a by lia. replace (d0 + Z.of_nat (Z.to_nat (b - d0))) with b by lia. repeat split; try assumption; lia. }
    apply Nat.ltb_lt in TD. rewrite TD. cbn [disagg_prec].
    destruct (disagg_prec_cascade e sub arg true 9 shft (draws k) 0) as [[data|]|x] eqn:EC; cbn [bind]; [|eexists; reflexivity|eexists; reflexivity].
    exfalso. destruct (cascade_needs_hours _ _ _ _ _ _ _ _ EC) as [hours HH].
    assert (SS : StronglySorted Z.lt (index sub)) by (apply filter_sorted_rows, daily_sorted).
    assert (IN : forall d, In (d * us_day) (index sub) <-> d0 <= d < d0 + Z.of_nat (length amounts) /\ season_day mo d).
    { intro d. split.
      - intro HI. apply in_map_iff in HI as ([t v] & E1 & Hv). cbn in E1. subst t. apply filter_In in Hv as [Hv M]. apply daily_In in Hv as (i & Hi & E1).
        cbn [fst] in M. rewrite month_midnight in M. apply mem_In in M. assert (i < length amounts)%nat by (apply nth_error_Some; congruence).
        unfold us_day in E1. split; [lia|exact M].
      - intros [B M]. destruct (nth_error amounts (Z.to_nat (d - d0))) as [v|] eqn:Ev; [|apply nth_error_None in Ev; lia].
        apply in_map_iff. exists (d * us_day, v). split; [reflexivity|]. apply filter_In. split.
        + apply daily_In. exists (Z.to_nat (d - d0)). split; [exact Ev|]. f_equal. lia.
        + cbn [fst]. rewrite month_midnight. apply mem_In, M. }
    assert (R : day_resolution (index sub) = true).
    { unfold day_resolution. apply forallb_forall. intros t Ht. apply in_map_iff in Ht as ([t' v] & <- & Hv). apply filter_In in Hv as [Hv _]. apply daily_In in Hv as (i & _ & ->).
      cbn [fst]. rewrite Z.mod_mul by (unfold us_day; lia). reflexivity. }
    destruct (hourly_index_block e _ _ T R SS HH) as [d1 BL].
    assert (Ia : In (a * us_day) (index sub)) by (apply IN; split; [lia|exact Sa]).
    assert (Ib : In (b * us_day) (index sub)) by (apply IN; split; [lia|exact Sb]).
    assert (Ig : In (g * us_day) (index sub)).
    { rewrite BL in Ia, Ib |- *. unfold daily_index in *. apply grid_In in Ia as (i & Hi & Ei). apply grid_In in Ib as (j & Hj & Ej). apply grid_In.
      exists (Z.to_nat (g - d1)). unfold us_day in *. split; [lia|]. lia. }
    apply IN in Ig. tauto.
  - destruct (seasonal_subset (daily d0 amounts) mo0) as [sub|x]; cbn [bind]; [|eexists; reflexivity].
    destruct (if Nat.ltb 1 (length sub) then _ else _) as [out1|x]; cbn [bind]; [|eexists; reflexivity].
    eapply IH; eassumption.
Qed.
