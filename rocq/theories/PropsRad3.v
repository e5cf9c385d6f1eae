(** Property C96: calibration of the Bristow-Campbell model. *)
From Coq Require Import String ZArith List Bool Reals Sorted Lia Lra.
From Verif Require Import Py Num Cal Series Frame SpecBase TimeProofs IndexProofs DaysProofs UtilModel Trans UtilModel2 SpecUtil UtilProofs SpecTemp TempProofs CourseProofs TempCourse
  RadModel RadFitModel SpecRad RadProofs RadBC RadPot RadStats PropsRad StationModel SpecStation StationProofs StationCascade PropsStation2 PropsStation3 PropsTemp PropsUtil PropsStation4 SpecSky PropsStation6.
Import ListNotations.
Open Scope Z_scope.

(** the table of n consecutive complete days *)
Definition day_rows (d0 : Z) (n : nat) (lo hi pot obs : nat -> R) : list (Z * (xr * xr * xr * xr)) :=
  map (fun i => ((d0 + Z.of_nat i) * us_day, (Fin (lo i), Fin (hi i), Fin (pot i), Fin (obs i)))) (seq 0 n).
(** estimate minus observation, averaged over the days *)
Definition mean_bias (d0 : Z) (n : nat) (lo hi pot obs : nat -> R) (A C : R) : R :=
  let tmin := map (fun i => Fin (lo i)) (seq 0 n) in let tmax := map (fun i => Fin (hi i)) (seq 0 n) in
  Rmean (map (fun i => (match day_dT tmin tmax i with Some dt => bc_R A C (Rmean (month_dT tmin tmax d0 (month_of_day (d0 + Z.of_nat i)))) dt * pot i | None => 0 end - obs i)%R) (seq 0 n)).

Lemma nth_mapseq {A} (F : nat -> A) n i d : (i < n)%nat -> nth i (map F (seq 0 n)) d = F i.
Proof. intro Hi. rewrite (nth_indep _ d (F O)) by (rewrite map_length, seq_length; exact Hi). rewrite (map_nth F), seq_nth by exact Hi. reflexivity. Qed.
Lemma numeric_mapFin (F : nat -> R) l : numeric (map (fun i => Fin (F i)) l).
Proof. apply Forall_forall. intros x Hx. apply in_map_iff in Hx as (i & <- & _). exact I. Qed.
Lemma day_dT_some lo hi n i : (i < n)%nat -> exists dt, day_dT (map (fun i => Fin (lo i)) (seq 0 n)) (map (fun i => Fin (hi i)) (seq 0 n)) i = Some dt.
Proof.
  intro Hi. unfold day_dT, next_day. rewrite map_length, seq_length. rewrite (nth_mapseq (fun i => Fin (lo i))) by exact Hi. rewrite (nth_mapseq (fun i => Fin (hi i))) by exact Hi.
  destruct (Nat.eqb_spec (S i) n); [eexists; reflexivity|]. rewrite (nth_mapseq (fun i => Fin (lo i))) by lia. eexists. reflexivity.
Qed.

Theorem C96_objective d0 n lo hi pot obs A C : n <> O -> (0 <= A)%R -> (0 < C)%R ->
  (forall i dt, (i < n)%nat -> day_dT (map (fun i => Fin (lo i)) (seq 0 n)) (map (fun i => Fin (hi i)) (seq 0 n)) i = Some dt -> (0 <= dt)%R) ->
  bc_absbias (day_rows d0 n lo hi pot obs) (Fin A) (Fin C) = Ok (Fin (Rabs (mean_bias d0 n lo hi pot obs A C))).
Proof.
  intros NZ HA HC HD. unfold bc_absbias, day_rows. rewrite !map_map. cbn [fst snd].
  set (tmin := map (fun i => Fin (lo i)) (seq 0 n)) in *. set (tmax := map (fun i => Fin (hi i)) (seq 0 n)) in *.
  pose proof (daily_seq (fun i => Fin (lo i)) d0 n) as E1. fold tmin in E1. rewrite <- E1.
  pose proof (daily_seq (fun i => Fin (hi i)) d0 n) as E2. fold tmax in E2. rewrite <- E2.
  rewrite <- (daily_seq (fun i => Fin (pot i)) d0 n), <- (daily_seq (fun i => Fin (obs i)) d0 n).
  assert (LT : length tmin = n) by (unfold tmin; rewrite map_length, seq_length; reflexivity).
  assert (NE : tmin <> []) by (intro K; rewrite K in LT; cbn in LT; congruence).
  rewrite (bc_daily d0 tmin tmax _ (PScalar (Fin A) (Fin C)) (fun _ => Fin A) (fun _ => Fin C) NE); [| | |cbn; auto].
  2: { rewrite LT. unfold tmax. rewrite map_length, seq_length. reflexivity. }
  2: { rewrite LT, map_length, seq_length. reflexivity. }
  cbn [bind]. rewrite LT. match goal with |- context [map _ (daily d0 (map ?f (seq 0 n)))] => set (F := f) end. 
  rewrite (daily_seq F d0 n), map_map. cbn [fst snd].
  set (G := fun i => (match day_dT tmin tmax i with Some dt => bc_R A C (Rmean (month_dT tmin tmax d0 (month_of_day (d0 + Z.of_nat i)))) dt * pot i | None => 0 end - obs i)%R).
  assert (EM : map (fun i => (F i - match lookup ((d0 + Z.of_nat i) * us_day) (daily d0 (map (fun i => Fin (obs i)) (seq 0 n))) with Some o => o | None => NaN end)%num) (seq 0 n) = map Fin (map G (seq 0 n))).
  { rewrite map_map. apply map_ext_in. intros i Hi. apply in_seq in Hi. rewrite lookup_daily, (nth_error_nth' _ i NaN) by (rewrite map_length, seq_length; lia).
    rewrite (nth_mapseq (fun i => Fin (obs i))) by lia. unfold F, G. cbv zeta. rewrite (nth_mapseq (fun i => Fin (pot i))) by lia.
    assert (N1 : numeric tmin) by apply numeric_mapFin. assert (N2 : numeric tmax) by apply numeric_mapFin.
    destruct (day_dT_some lo hi n i ltac:(lia)) as (dt & ED). fold tmin in ED. fold tmax in ED. rewrite dT_ok, ED by assumption.
    assert (ME : month_avg tmin tmax d0 (month_of_day (d0 + Z.of_nat i)) = Fin (Rmean (month_dT tmin tmax d0 (month_of_day (d0 + Z.of_nat i))))).
    { rewrite month_avg_ok by assumption. destruct (month_dT tmin tmax d0 (month_of_day (d0 + Z.of_nat i))) eqn:E; [|reflexivity]. exfalso.
      assert (IN : In dt (month_dT tmin tmax d0 (month_of_day (d0 + Z.of_nat i)))).
      { unfold month_dT. apply in_flat_map. exists i. split; [apply in_seq; lia|]. rewrite Z.eqb_refl, ED. left. reflexivity. }
      rewrite E in IN. destruct IN. }
    rewrite ME, bc1_ok; [reflexivity|exact HC|]. apply (HD i dt); [lia|exact ED]. }
  rewrite EM, nanmean_numeric; [rewrite fins_Fin; reflexivity|apply numeric_Fin|]. rewrite fins_Fin. destruct n; [contradiction|discriminate].
Qed.
Print Assumptions C96_objective.

(** a minimiser whose mean bias over complete records is at most eps *)
Definition bias_fit (mb : list (Z * (xr * xr * xr * xr)) -> res (xr * xr)) (eps : R) : Prop :=
  forall d0 n lo hi pot obs v, n <> O -> mb (day_rows d0 n lo hi pot obs) = Ok v ->
    exists A C, v = (Fin A, Fin C) /\ (0 <= A)%R /\ (0 < C)%R /\ (Rabs (mean_bias d0 n lo hi pot obs A C) <= eps)%R.

(** two tables with increasing labels and the same rows are equal *)
Lemma sorted_unique {B} (l1 : list (Z * B)) : forall l2, StronglySorted Z.lt (map fst l1) -> StronglySorted Z.lt (map fst l2) ->
  (forall p, In p l1 <-> In p l2) -> l1 = l2.
Proof.
  induction l1 as [|[t b] l1 IH]; intros l2 S1 S2 H.
  - destruct l2 as [|p l2]; [reflexivity|]. exfalso. apply (H p). left. reflexivity.
  - cbn [map fst] in S1. inversion S1 as [|? ? S1' F1]; subst. rewrite Forall_forall in F1.
    destruct l2 as [|[u c] l2]; [exfalso; apply (H (t, b)); left; reflexivity|]. cbn [map fst] in S2. inversion S2 as [|? ? S2' F2]; subst. rewrite Forall_forall in F2.
    assert (E : (t, b) = (u, c)).
    { destruct (proj1 (H (t, b)) (or_introl eq_refl)) as [E|E]; [congruence|]. destruct (proj2 (H (u, c)) (or_introl eq_refl)) as [E'|E']; [congruence|].
      apply (in_map fst) in E. apply (in_map fst) in E'. cbn [fst] in E, E'. apply F2 in E. apply F1 in E'. lia. }
    rewrite E. apply (f_equal fst) in E as ET. cbn [fst] in ET. subst u. f_equal. apply IH; [exact S1'|exact S2'|]. intro p. split; intro I.
    + destruct (proj1 (H p) (or_intror I)) as [K|K]; [|exact K]. apply (in_map fst) in I. apply F1 in I. rewrite <- K in I. cbn [fst] in I. lia.
    + destruct (proj2 (H p) (or_intror I)) as [K|K]; [|exact K]. apply (in_map fst) in I. apply F2 in I. rewrite <- K in I. cbn [fst] in I. lia.
Qed.
Lemma day_rows_sorted d0 n lo hi pot obs : StronglySorted Z.lt (map fst (day_rows d0 n lo hi pot obs)).
Proof.
  unfold day_rows. rewrite map_map. cbn [fst]. assert (E : map (fun i => (d0 + Z.of_nat i) * us_day) (seq 0 n) = daily_index d0 n).
  { unfold daily_index, grid. apply map_ext. intro i. ring. }
  rewrite E. unfold daily_index. apply grid_sorted. reflexivity.
Qed.
Lemma Rmean_ext_le (F G : nat -> R) n eps : n <> O -> (forall i, (i < n)%nat -> (Rabs (F i - G i) <= eps)%R) -> (Rabs (Rmean (map F (seq 0 n)) - Rmean (map G (seq 0 n))) <= eps)%R.
Proof.
  intros NZ H. unfold Rmean. rewrite !map_length, seq_length. assert (NP : (0 < INR n)%R) by (apply lt_0_INR; lia).
  assert (S0 : (Rabs (Rsum (map F (seq 0 n)) - Rsum (map G (seq 0 n))) <= INR n * eps)%R).
  { clear NZ NP. induction n as [|n IH].
    - unfold Rsum. cbn. rewrite Rminus_diag_eq by reflexivity. rewrite Rabs_R0. lra.
    - rewrite seq_S, !map_app, S_INR. cbn [Nat.add map].
      assert (RA : forall l x, Rsum (l ++ [x]) = (Rsum l + x)%R) by (intros l x; unfold Rsum; induction l as [|y l IHl]; cbn [app fold_right] in *; [lra|rewrite IHl; lra]).
      rewrite !RA. pose proof (H n ltac:(lia)) as Hn. assert (IHn := IH ltac:(intros; apply H; lia)).
      replace (Rsum (map F (seq 0 n)) + F n - (Rsum (map G (seq 0 n)) + G n))%R with ((Rsum (map F (seq 0 n)) - Rsum (map G (seq 0 n))) + (F n - G n))%R by ring.
      eapply Rle_trans; [apply Rabs_triang|]. lra. }
  replace (Rsum (map F (seq 0 n)) / INR n - Rsum (map G (seq 0 n)) / INR n)%R with ((Rsum (map F (seq 0 n)) - Rsum (map G (seq 0 n))) * / INR n)%R by (field; lra).
  rewrite Rabs_mult, (Rabs_right (/ INR n)) by (apply Rle_ge, Rlt_le, Rinv_0_lt_compat, NP).
  apply Rmult_le_reg_r with (INR n); [exact NP|]. rewrite Rmult_assoc, Rinv_l by lra. lra.
Qed.
Lemma Rmean_minus (F G : nat -> R) n : Rmean (map (fun i => (F i - G i)%R) (seq 0 n)) = (Rmean (map F (seq 0 n)) - Rmean (map G (seq 0 n)))%R.
Proof.
  unfold Rmean. rewrite !map_length, seq_length.
  assert (E : Rsum (map (fun i => (F i - G i)%R) (seq 0 n)) = (Rsum (map F (seq 0 n)) - Rsum (map G (seq 0 n)))%R).
  { generalize (seq 0 n). induction l as [|i l IH]; unfold Rsum in *; cbn [map fold_right]; [lra|]. rewrite IH. lra. }
  rewrite E. unfold Rdiv. ring.
Qed.

(** the complete rows of all months of n consecutive days *)
Lemma complete_is_day_rows dd d0 n lo hi lon lat tz (rec : series xr) rows : 
  let tmin := map (fun i => Fin (lo i)) (seq 0 n) in let tmax := map (fun i => Fin (hi i)) (seq 0 n) in
  let pot i := Rmean (sky_day (d0 + Z.of_nat i) lon lat tz) in let observed i := Rmean (fins (values_on (d0 + Z.of_nat i) rec)) in
  day_frame dd d0 n -> (forall i, (i < n)%nat -> ordinary_day (d0 + Z.of_nat i) lon lat tz) ->
  numeric (map snd rec) -> (forall i, (i < n)%nat -> fins (values_on (d0 + Z.of_nat i) rec) <> []) ->
  complete_rows [1; 2; 3; 4; 5; 6; 7; 8; 9; 10; 11; 12] (combine (f_index dd) tmin) (combine (f_index dd) tmax)
    (resample us_day nanmean (potential_radiation (hours_index d0 n) (Fin lon) (Fin lat) (Fin tz) n0 n0 n0)) (resample us_day nanmean rec) rows ->
  rows = day_rows d0 n lo hi pot observed.
Proof.
  intros tmin tmax pot observed.
  intros F OD NU NE CR. destruct CR as [SO RI]. apply sorted_unique; [exact SO|apply day_rows_sorted|]. intros [t [[[x y] z] u]]. rewrite RI. clear RI.
    assert (LO : forall f : nat -> xr, lookup t (combine (f_index dd) (map f (seq 0 n))) = lookup t (daily d0 (map f (seq 0 n)))) by (intro f; destruct F as [_ FI]; rewrite FI; unfold daily; rewrite map_length, seq_length; reflexivity).
    change (@entry_of xr) with (@lookup xr). unfold tmin, tmax. rewrite !LO. clear LO.
    assert (GET : forall (f : nat -> R) x, lookup t (daily d0 (map (fun i => Fin (f i)) (seq 0 n))) = Some x -> exists i, (i < n)%nat /\ t = (d0 + Z.of_nat i) * us_day /\ x = Fin (f i)).
    { clear. intros f x H. rewrite daily_seq in H. apply lookup_pair in H. apply in_map_iff in H as (i & E & Hi). apply in_seq in Hi. exists i. split; [lia|]. split; congruence. }
    assert (AT : forall i, (i < n)%nat -> forall f : nat -> R, lookup ((d0 + Z.of_nat i) * us_day) (daily d0 (map (fun i => Fin (f i)) (seq 0 n))) = Some (Fin (f i))).
    { clear. intros i Hi f. rewrite lookup_daily, (nth_error_nth' _ i NaN) by (rewrite map_length, seq_length; exact Hi). rewrite (nth_mapseq (fun i => Fin (f i))) by exact Hi. reflexivity. }
    assert (PT : forall i, (i < n)%nat -> lookup ((d0 + Z.of_nat i) * us_day) (resample us_day nanmean (potential_radiation (hours_index d0 n) (Fin lon) (Fin lat) (Fin tz) n0 n0 n0)) = Some (Fin (pot i))).
    { intros i Hi. rewrite (resample_hours nanmean d0 n) by apply sky_index. rewrite <- (daily_seq (fun i => nanmean (values_on (d0 + Z.of_nat i) (potential_radiation (hours_index d0 n) (Fin lon) (Fin lat) (Fin tz) n0 n0 n0))) d0 n).
      rewrite lookup_daily, nth_error_map, nth_error_nth' with (d := O) by (rewrite seq_length; exact Hi). rewrite seq_nth by exact Hi. cbn [option_map Nat.add].
      rewrite (sky_values d0 n lon lat tz i Hi (OD i Hi)). rewrite nanmean_numeric; [rewrite fins_Fin; reflexivity|apply numeric_Fin|rewrite fins_Fin; discriminate]. }
    assert (OB : forall i, (i < n)%nat -> lookup ((d0 + Z.of_nat i) * us_day) (resample us_day nanmean rec) = Some (Fin (observed i))).
    { intros i Hi. pose proof (NE i Hi) as NEi. assert (EX : exists t, In t (map fst rec) /\ date_of t = d0 + Z.of_nat i).
      { destruct (values_on (d0 + Z.of_nat i) rec) as [|x0 l] eqn:EV; [contradiction|]. assert (IX : In x0 (values_on (d0 + Z.of_nat i) rec)) by (rewrite EV; left; reflexivity). unfold values_on in IX. apply in_map_iff in IX as ([t0 y0] & _ & IX). apply filter_In in IX as [I1 I2].
        exists t0. split; [apply in_map_iff; exists (t0, y0); auto|apply Z.eqb_eq, I2]. }
      destruct EX as (t0 & T1 & T2). rewrite <- T2. rewrite resample_day by exact T1. rewrite T2. f_equal. apply nanmean_numeric; [apply values_on_numeric, NU|exact NEi]. }
    split.
    - intros (_ & E1 & E2 & E3 & E4 & _). destruct (GET lo x E1) as (i & Hi & -> & ->). rewrite (AT i Hi hi) in E2. rewrite (PT i Hi) in E3. rewrite (OB i Hi) in E4.
      unfold day_rows. apply in_map_iff. exists i. split; [congruence|apply in_seq; lia].
    - intro I. unfold day_rows in I. apply in_map_iff in I as (i & E & Hi). apply in_seq in Hi. assert (Hi' : (i < n)%nat) by lia.
      apply (f_equal fst) in E as E0. apply (f_equal snd) in E. cbn [fst snd] in E0, E. subst t.
      assert (X1 : x = Fin (lo i)) by congruence. assert (X2 : y = Fin (hi i)) by congruence. assert (X3 : z = Fin (pot i)) by congruence. assert (X4 : u = Fin (observed i)) by congruence. subst x y z u. clear E.
      split; [rewrite month_midnight; pose proof (month_range (d0 + Z.of_nat i)) as M; apply (month_groups_all "all") in M; apply in_concat in M as (g & [<-|[]] & M); exact M|].
      rewrite (AT i Hi' lo), (AT i Hi' hi), (PT i Hi'), (OB i Hi'). repeat split; discriminate.
Qed.

(** calibrated on a complete record with how='all', 'pot_rad_via_bc' reproduces the mean radiation of the period *)
Theorem C96_reproduces cf mb fc lr pc e q dl q' st d0 n dd lo hi lon lat tz eps :
  q_lon q = Some (Fin lon) -> q_lat q = Some (Fin lat) -> q_tz q = Some (Fin tz) ->
  ready st d0 n dd -> placed st d0 n lon lat tz ->
  let tmin := map (fun i => Fin (lo i)) (seq 0 n) in let tmax := map (fun i => Fin (hi i)) (seq 0 n) in
  has_column dd "tmin" tmin -> has_column dd "tmax" tmax ->
  (forall i dt, (i < n)%nat -> day_dT tmin tmax i = Some dt -> (0 <= dt)%R) ->
  (forall i, (i < n)%nat -> ordinary_day (d0 + Z.of_nat i) lon lat tz) ->
  let rec := record_of q "glob" in let observed i := Rmean (fins (values_on (d0 + Z.of_nat i) rec)) in
  numeric (map snd rec) -> (forall i, (i < n)%nat -> fins (values_on (d0 + Z.of_nat i) rec) <> []) ->
  run_stat cf mb fc lr pc e q (QRad (Some dd) dl "all") = (q', None) -> bias_fit mb eps ->
  exists st' vals, st_radiation e q' st "pot_rad_via_bc" None = (st', None) /\ ready st' d0 n dd /\ (forall c, c <> "glob"%string -> hourly_column st' c = hourly_column st c) /\
    (forall i, (i < n)%nat -> hourly_on st' "glob" (d0 + Z.of_nat i) = map Fin (vals i) /\ length (vals i) = 24%nat) /\
    (Rabs (Rmean (map (fun i => Rmean (vals i)) (seq 0 n)) - Rmean (map observed (seq 0 n))) <= eps + 1 / 100)%R.
Proof.
  intros L1 L2 L3 RD PL tmin tmax C1 C2 HD OD rec observed NU NE RS FIT.
  destruct (rad_stats_course _ _ _ _ _ _ _ _ _ _ _ RS) as ((v & df & ED & EG) & _ & QG & QE & HOW).
  assert (F : day_frame dd d0 n) by (split; [apply RD|apply RD]).
  assert (RO : rec = combine (f_index df) v) by (unfold rec, record_of; rewrite ED, EG; reflexivity).
  pose proof (day_frame_hours e dd d0 n F) as HH. rewrite ED, L1, L2, L3 in QG, QE.
  set (run := calc_radiation_stats cf mb e (Some df) (Some (Fin lon)) (Some (Fin lat)) (Some (Fin tz)) (Some dd) dl "all" (q_glob q)) in *.
  assert (RE : run = (q_glob q', None)) by (rewrite QG, <- QE; apply surjective_pairing).
  assert (NM : "all"%string <> "monthly"%string \/ assoc "ssd" (f_cols dd) = None \/ dl = None) by (left; discriminate).
  pose proof (C45_bristcamp_groups cf mb e df dd v _ (Fin lon) (Fin lat) (Fin tz) dl "all" (q_glob q) HOW EG HH tmin tmax (q_glob q') (proj1 C1) (proj1 C2) RE NM) as FG. rewrite <- RO in FG.
  destruct (FG _ (or_introl eq_refl)) as (rows & w & CR & MB & W). clear FG.
  assert (NZ : n <> O) by apply RD.
  set (pot := fun i => Rmean (sky_day (d0 + Z.of_nat i) lon lat tz)).
  pose proof (complete_is_day_rows dd d0 n lo hi lon lat tz rec rows F OD NU NE CR) as ER. fold pot in ER.
  rewrite ER in MB. destruct (FIT d0 n lo hi pot observed w NZ MB) as (A & C & -> & HA & HC & HB).
  assert (ROW : forall day, entry_of (month_of_day day) (g_bristcamp (q_glob q')) = Some (Fin A, Fin C)).
  { intro day. apply W. pose proof (month_range day) as M. apply (month_groups_all "all") in M. apply in_concat in M as (g & [<-|[]] & M). exact M. }
  assert (FT : full_table (g_bristcamp (q_glob q'))).
  { intros m Hm. apply (month_groups_all "all") in Hm. apply in_concat in Hm as (g & [<-|[]] & Hm). exists (Fin A, Fin C). apply W, Hm. }
  destruct (C95_temperature e q' st d0 n dd tmin tmax lon lat tz RD PL C1 C2 (numeric_mapFin _ _) (numeric_mapFin _ _) FT) as (st' & E1 & E2 & E3 & V).
  set (est := fun i => match day_dT tmin tmax i with Some dt => (bc_R A C (Rmean (month_dT tmin tmax d0 (month_of_day (d0 + Z.of_nat i)))) dt * pot i)%R | None => 0%R end).
  exists st', (fun i => fins (hourly_on st' "glob" (d0 + Z.of_nat i))). split; [exact E1|]. split; [exact E2|]. split; [exact E3|].
  assert (DAY : forall i, (i < n)%nat -> exists vals, hourly_on st' "glob" (d0 + Z.of_nat i) = map Fin vals /\ length vals = 24%nat /\ (est i - 1 / 100 < Rmean vals <= est i)%R).
  { intros i Hi. destruct (day_dT_some lo hi n i Hi) as (dt & EDT). fold tmin in EDT. fold tmax in EDT.
    destruct (V i dt A C Hi EDT (HD i dt Hi EDT) (OD i Hi) (ROW _) HA HC) as (vals & V1 & V2). exists vals. split; [exact V1|]. destruct V2 as (S1 & _ & S3 & _).
    split; [rewrite S1; unfold sky_day; rewrite map_length, seq_length; reflexivity|]. unfold est. rewrite EDT. exact S3. }
  split.
  - intros i Hi. destruct (DAY i Hi) as (vals & V1 & V2 & _). rewrite V1, fins_Fin. split; [reflexivity|exact V2].
  - assert (B1 : (Rabs (Rmean (map (fun i => Rmean (fins (hourly_on st' "glob" (d0 + Z.of_nat i)))) (seq 0 n)) - Rmean (map est (seq 0 n))) <= 1 / 100)%R).
    { apply Rmean_ext_le; [exact NZ|]. intros i Hi. destruct (DAY i Hi) as (vals & V1 & _ & V3). rewrite V1, fins_Fin. apply Rabs_le. lra. }
    assert (B2 : (Rabs (Rmean (map est (seq 0 n)) - Rmean (map observed (seq 0 n))) <= eps)%R).
    { rewrite <- Rmean_minus. exact HB. }
    eapply Rle_trans; [|apply Rle_trans with (1 := Rplus_le_compat _ _ _ _ B1 B2); lra].
    match goal with |- (Rabs (?a - ?b) <= Rabs (?a - ?m) + Rabs (?m - ?b))%R => replace (a - b)%R with ((a - m) + (m - b))%R by ring end. apply Rabs_triang.
Qed.
Print Assumptions C96_reproduces.

(** ** gaps *)
Lemma last_app_cons {A} (l1 l2 : list A) x d : last (l1 ++ x :: l2) d = last (x :: l2) d.
Proof. induction l1 as [|y l1 IH]; [reflexivity|]. cbn [app]. rewrite <- IH. destruct l1; reflexivity. Qed.
Lemma last_In {A} (l : list A) d : l <> [] -> In (last l d) l.
Proof. intro H. induction l as [|x l IH]; [contradiction|]. destruct l as [|y l]; [left; reflexivity|]. right. apply IH. discriminate. Qed.
Lemma lookup_position (full : list Z) (vals : list xr) t v : lookup t (combine full vals) = Some v -> exists i, nth_error full i = Some t /\ nth_error vals i = Some v.
Proof.
  revert vals. induction full as [|u full IH]; intros [|y vals] H; cbn [combine] in H; try discriminate. unfold lookup in H. cbn [find fst] in H. destruct (Z.eqb_spec u t) as [->|].
  - exists O. split; [reflexivity|]. cbn in H. exact H.
  - destruct (IH vals H) as (i & I1 & I2). exists (S i). split; assumption.
Qed.
Lemma Forall2_back {A B} (R : A -> B -> Prop) l out b : Forall2 R l out -> In b out -> exists a, In a l /\ R a b.
Proof. induction 1 as [|x y l out E F IH]; [intros []|]. intros [->|I]; [exists x; split; [left; reflexivity|exact E]|]. destruct (IH I) as (z & Z1 & Z2). exists z. split; [right; exact Z1|exact Z2]. Qed.
Lemma nan_mul (x : xr) : (x * NaN)%num = NaN /\ (NaN * x)%num = NaN.
Proof. split; destruct x; reflexivity. Qed.
Lemma bc1_nan A c B pot : (c <> 0)%R -> bc1 A (Fin c) B NaN pot = NaN.
Proof.
  intro H. unfold bc1. assert (P : xpow NaN (Fin c) = NaN) by (cbn; unfold Reqb; destruct (Req_EM_T c 0); [contradiction|reflexivity]).
  rewrite P, (proj1 (nan_mul _)). change (xexp NaN) with NaN. assert (Q : (n1 - NaN)%num = (NaN : xr)) by reflexivity. rewrite Q, (proj1 (nan_mul _)). apply nan_mul.
Qed.
Lemma estimate_before_gap a c (tmin tmax pot est : series xr) l1 t l2 : (c <> 0)%R ->
  index tmin = l1 ++ t :: l2 -> StronglySorted Z.lt (index tmin) -> (forall u, In u (index tmin) -> u mod us_day = 0) ->
  l2 <> [] -> ~ In (t + us_day) (index tmin) -> bristow_campbell (PScalar a (Fin c)) tmin tmax pot = Ok est ->
  forall x, In (t, x) est -> x = NaN.
Proof.
  intros HC EI SO MID NE GAP H x IX. unfold bristow_campbell in H. destruct (negb _); [discriminate|].
  destruct (index tmin) as [|t0 rest] eqn:EIX; [discriminate|]. rewrite <- EIX in *.
  assert (HL : last (index tmin) t0 = last l2 t0) by (rewrite EI, last_app_cons; destruct l2; [contradiction|reflexivity]).
  destruct (has_dup (index tmin)); [discriminate|]. cbn [negb] in H.
  set (full := date_range t0 (last (index tmin) t0) us_day) in H.
  set (tf := map (fun t1 => (t1, match lookup t1 tmin with Some v => v | None => NaN end)) full) in H.
  set (nx := combine full (map snd (skipn 1 tf) ++ map snd (skipn (length full - 1) tf))) in H.
  match type of H with context [mapM ?f (index tmin)] => set (frow := f) in H end.
  destruct (mapM frow (index tmin)) as [rows|] eqn:ER; [|discriminate]. cbn [bind] in H.
  destruct (mapM _ (index tmin)) as [pots|] eqn:EP in H; [|discriminate]. cbn [bind] in H.
  apply mapM_inv in H. 
  assert (EX : exists dT p, In (t, dT, p) (combine rows pots) /\ x = bc1 a (Fin c) (bc_B (nanmean (map snd (filter (fun p => month_of (fst p) =? month_of t) rows)))) dT p).
  { destruct (Forall2_back _ _ _ _ H IX) as ([[u dT] p] & I1 & E). cbn [params_at bind fst snd] in E. injection E as E1 E2. subst u. exists dT, p. split; [exact I1|symmetry; exact E2]. }
  destruct EX as (dT & p & IC & ->). apply in_combine_l in IC.
  assert (DN : dT = NaN).
  { apply mapM_inv in ER.
    assert (FR : exists u, frow u = Ok (t, dT)).
    { destruct (Forall2_back _ _ _ _ ER IC) as (u & _ & E). exists u. exact E. }
    destruct FR as (u & FR). unfold frow in FR. destruct (at_label nx u) as [nv|] eqn:EN; [|discriminate]. cbn [bind] in FR. destruct (at_label tf u) as [lv|]; [|discriminate]. cbn [bind] in FR.
    apply (f_equal (fun r => match r with Ok q => q | Err _ => (0, NaN) end)) in FR. cbv beta iota in FR. pose proof (f_equal fst FR) as F1. pose proof (f_equal snd FR) as F2. cbn [fst snd] in F1, F2. subst u. rewrite <- F2. clear FR F2.
    assert (NV : nv = NaN).
    { unfold at_label in EN. destruct (lookup t nx) as [w|] eqn:EL; [|discriminate]. injection EN as ->. unfold nx in EL. apply lookup_position in EL as (i & I1 & I2).
      set (lst := last (index tmin) t0) in *.
      assert (TI : In t (index tmin)) by (rewrite EI; apply in_or_app; right; left; reflexivity).
      assert (T0 : In t0 (index tmin)) by (rewrite EIX; left; reflexivity).
      assert (LI : In lst l2) by (rewrite HL; apply last_In, NE).
      assert (LT : t < lst).
      { rewrite EI in SO. clear - SO LI. induction l1 as [|y l1 IH]; cbn [app] in SO; inversion SO as [|? ? S1 F1]; subst; [rewrite Forall_forall in F1; apply F1, LI|apply IH, S1]. }
      assert (LE : t0 <= t).
      { rewrite EIX in SO, TI. inversion SO as [|? ? S1 F1]; subst. rewrite Forall_forall in F1. destruct TI as [->|TI]; [lia|]. apply F1 in TI. lia. }
      assert (LM : In lst (index tmin)) by (rewrite EI; apply in_or_app; right; right; exact LI).
      pose proof (MID _ TI) as M1. pose proof (MID _ T0) as M2. pose proof (MID _ LM) as M3.
      assert (UD : 0 < us_day) by reflexivity.
      set (N := Z.to_nat ((lst - t0) / us_day + 1)).
      assert (EF : full = map (fun k => t0 + Z.of_nat k * us_day) (seq 0 N)) by (unfold full, date_range; destruct (Z.ltb_spec lst t0); [lia|reflexivity]).
      assert (LF : length full = N) by (rewrite EF, map_length, seq_length; reflexivity).
      assert (Hi : (i < N)%nat) by (rewrite <- LF; apply nth_error_Some; congruence).
      assert (TE : t = t0 + Z.of_nat i * us_day).
      { rewrite EF, nth_error_map, nth_error_nth' with (d := O) in I1 by (rewrite seq_length; exact Hi). rewrite seq_nth in I1 by exact Hi. cbn in I1. congruence. }
      assert (Hi2 : (S i < N)%nat).
      { unfold N. apply Z.mod_divide in M1, M2, M3; try lia. destruct M1 as (k1 & K1), M2 as (k2 & K2), M3 as (k3 & K3).
        assert (E1 : Z.of_nat i = k1 - k2) by nia. assert (k1 < k3) by nia. replace (lst - t0) with ((k3 - k2) * us_day) by lia. rewrite Z.div_mul by lia. lia. }
      rewrite nth_error_app1 in I2.
      2: { rewrite map_length, skipn_length. unfold tf. rewrite map_length, LF. lia. }
      rewrite nth_error_map in I2. assert (NS : forall k (l : list (Z * xr)), nth_error (skipn 1 l) k = nth_error l (S k)) by (intros k [|y l]; [destruct k; reflexivity|reflexivity]).
      rewrite NS in I2. unfold tf in I2. rewrite nth_error_map, EF, nth_error_map, nth_error_nth' with (d := O) in I2 by (rewrite seq_length; exact Hi2). rewrite seq_nth in I2 by exact Hi2. cbn [option_map Nat.add snd] in I2.
      replace (t0 + Z.of_nat (S i) * us_day) with (t + us_day) in I2 by lia.
      destruct (lookup (t + us_day) tmin) as [v|] eqn:EV; [|congruence]. exfalso. apply GAP. apply lookup_index in EV. exact EV. }
    rewrite NV. assert (P1 : (lv + NaN)%num = (NaN : xr)) by (destruct lv; reflexivity). rewrite P1. assert (P2 : (NaN / n_ofZ 2)%num = (NaN : xr)) by reflexivity. rewrite P2. destruct (match lookup t tmax with Some v => v | None => NaN end); reflexivity. }
  rewrite DN. apply bc1_nan, HC.
Qed.

(** a day whose following day is not in the table has no estimate, so its observation does not count (deviation) *)
Theorem C96_day_before_gap l1 t lo hi p o o' l2 a c :
  let rows v := l1 ++ (t, (lo, hi, p, v)) :: l2 in
  StronglySorted Z.lt (map fst (rows o)) -> (forall u, In u (map fst (rows o)) -> u mod us_day = 0) ->
  l2 <> [] -> ~ In (t + us_day) (map fst (rows o)) -> (c <> 0)%R ->
  bc_absbias (rows o) a (Fin c) = bc_absbias (rows o') a (Fin c).
Proof.
  intros rows SO MID NE GAP HC. unfold bc_absbias.
  assert (EC : forall {B} (f : xr * xr * xr * xr -> B) , (f (lo, hi, p, o) = f (lo, hi, p, o')) -> map (fun r => (fst r, f (snd r))) (rows o) = map (fun r => (fst r, f (snd r))) (rows o')).
  { intros B f E. unfold rows. rewrite !map_app. cbn [map fst snd]. rewrite E. reflexivity. }
  rewrite <- !(EC _ (fun q => fst (fst (fst q))) eq_refl), <- !(EC _ (fun q => snd (fst (fst q))) eq_refl), <- !(EC _ (fun q => snd (fst q)) eq_refl). clear EC.
  set (tmin := map (fun r => (fst r, fst (fst (fst (snd r))))) (rows o)). 
  destruct (bristow_campbell _ tmin _ _) as [est|] eqn:EE; [|reflexivity]. cbn [bind]. do 3 f_equal. apply map_ext_in. intros [u x] IX. cbn [fst snd].
  assert (IT : index tmin = map fst (rows o)) by (unfold tmin, index; rewrite map_map; reflexivity).
  destruct (Z.eq_dec u t) as [->|NT].
  - assert (XN : x = NaN).
    { apply (estimate_before_gap a c tmin _ _ est (map fst l1) t (map fst l2) HC) with (6 := EE) (x := x); rewrite ?IT; try assumption; [unfold rows; rewrite map_app; reflexivity|destruct l2; [contradiction|discriminate]]. }
    rewrite XN. reflexivity.
  - f_equal. assert (LE : forall v w, lookup u (map (fun r => (fst r, snd (snd r))) (rows v)) = lookup u (map (fun r => (fst r, snd (snd r))) (rows w))).
    { intros v w. unfold rows. rewrite !map_app. cbn [map fst snd]. clear - NT. induction l1 as [|r l1 IH]; cbn [map app]; unfold lookup in *; cbn [find fst].
      - destruct (Z.eqb_spec t u); [congruence|reflexivity].
      - destruct (fst r =? u); [reflexivity|exact IH]. }
    rewrite (LE o o'). reflexivity.
Qed.
Print Assumptions C96_day_before_gap.

(** ** examples *)
Example C96_met : let lo (i : nat) := 0%R in let hi (i : nat) := 10%R in
  forall i dt, (i < 2)%nat -> day_dT (map (fun i => Fin (lo i)) (seq 0 2)) (map (fun i => Fin (hi i)) (seq 0 2)) i = Some dt -> dt = 10%R.
Proof. intros lo hi i dt Hi. destruct i as [|[|]]; [| |lia]; unfold day_dT, lo, hi; cbn; intro E; injection E as <-; lra. Qed.
(** spring of two years: 31 May 1970 is followed by 1 March 1971, its observation is ignored *)
Example C96_gap_met : bc_absbias [(150 * us_day, (Fin 5, Fin 15, Fin 300, Fin 100)); (424 * us_day, (Fin 0, Fin 10, Fin 200, Fin 90))] (Fin 0.75) (Fin 2.4)
  = bc_absbias [(150 * us_day, (Fin 5, Fin 15, Fin 300, Fin 900)); (424 * us_day, (Fin 0, Fin 10, Fin 200, Fin 90))] (Fin 0.75) (Fin 2.4) /\
  month_of_day 150 = 5 /\ month_of_day 424 = 3.
Proof.
  split; [|split; reflexivity].
  apply (C96_day_before_gap [] (150 * us_day) (Fin 5) (Fin 15) (Fin 300) (Fin 100) (Fin 900) [(424 * us_day, (Fin 0, Fin 10, Fin 200, Fin 90))]).
  - cbn. repeat constructor.
  - cbn. intros u [<-|[<-|[]]]; reflexivity.
  - discriminate.
  - cbn. intros [H|[H|[]]]; discriminate.
  - lra.
Qed.
(** one day, C = 1 and the A that explains the observation *)
Definition one_day_k (lo hi : R) : R := (1 - exp (- (0.036 * exp (-0.154 * (hi - lo))) * Rpower (hi - lo) 1))%R.
Definition one_day_fit (rows : list (Z * (xr * xr * xr * xr))) : res (xr * xr) :=
  match rows with
  | [(_, (Fin lo, Fin hi, Fin p, Fin o))] => if Rlt_dec lo hi then if Rlt_dec 0 p then if Rle_dec 0 o then Ok (Fin (o / (p * one_day_k lo hi)), Fin 1) else Err ValueError else Err ValueError else Err ValueError
  | _ => Err ValueError
  end.
Lemma one_day_k_pos lo hi : (lo < hi)%R -> (0 < one_day_k lo hi)%R.
Proof.
  intro H. unfold one_day_k. assert (P : (0 < 0.036 * exp (-0.154 * (hi - lo)) * Rpower (hi - lo) 1)%R).
  { apply Rmult_lt_0_compat; [apply Rmult_lt_0_compat; [lra|apply exp_pos]|unfold Rpower; apply exp_pos]. }
  assert (E : (exp (- (0.036 * exp (-0.154 * (hi - lo))) * Rpower (hi - lo) 1) < exp 0)%R) by (apply exp_increasing; lra). rewrite exp_0 in E. lra.
Qed.
Lemma one_day_exact : bias_fit one_day_fit 0.
Proof.
  intros d0 n lo hi pot obs v NZ H. destruct n as [|[|n]]; [contradiction| |discriminate].
  unfold day_rows in H. cbn [seq map one_day_fit] in H. destruct (Rlt_dec (lo O) (hi O)) as [H1|]; [|discriminate]. destruct (Rlt_dec 0 (pot O)) as [H2|]; [|discriminate]. destruct (Rle_dec 0 (obs O)) as [H3|]; [|discriminate].
  pose proof (one_day_k_pos _ _ H1) as KP. exists (obs O / (pot O * one_day_k (lo O) (hi O)))%R, 1%R. split; [congruence|].
  assert (PP : (0 < pot O * one_day_k (lo O) (hi O))%R) by (apply Rmult_lt_0_compat; assumption).
  split; [unfold Rdiv; apply Rmult_le_pos; [exact H3|apply Rlt_le, Rinv_0_lt_compat, PP]|]. split; [lra|].
  unfold mean_bias. cbn [seq map]. 
  assert (ED : day_dT [Fin (lo O)] [Fin (hi O)] 0 = Some (hi O - lo O)%R) by (unfold day_dT, next_day; cbn [length Nat.eqb nth]; f_equal; lra).
  rewrite ED. assert (EM : month_dT [Fin (lo O)] [Fin (hi O)] d0 (month_of_day (d0 + Z.of_nat 0)) = [(hi O - lo O)%R]).
  { unfold month_dT. cbn [length seq flat_map]. rewrite Z.eqb_refl, ED. reflexivity. }
  rewrite EM. assert (R1 : forall x, Rmean [x] = x) by (intro x; unfold Rmean, Rsum; cbn; lra). rewrite !R1.
  unfold bc_R. destruct (Req_EM_T (hi O - lo O) 0); [lra|]. fold (one_day_k (lo O) (hi O)).
  replace (obs O / (pot O * one_day_k (lo O) (hi O)) * one_day_k (lo O) (hi O) * pot O - obs O)%R with 0%R by (field; split; lra). rewrite Rabs_R0. lra.
Qed.
Definition ex_bc_day : dframe xr := Build_dframe (daily_index 0 1) [("tmin"%string, [Fin 270]); ("tmax"%string, [Fin 280])].
Definition ex_bc : station :=
  {| s_lon := Some (Fin 0); s_lat := Some (Fin 0); s_tz := Some (Fin 0); s_stats := O; s_daily := Some ex_bc_day; s_disagg := Some (empty_hourly (hours_index 0 1)); s_sun := None |}.
Lemma ex_bc_ready : ready ex_bc 0 1 ex_bc_day.
Proof. split; [discriminate|]. split; [reflexivity|]. split; [reflexivity|]. eexists. split; [reflexivity|]. split; reflexivity. Qed.
Lemma ex_sun_all_numeric : numeric (map snd (record_of ex_sun_stats "glob")).
Proof. rewrite ex_sun_record, map_map. cbn [snd]. apply Forall_forall. intros x Hx. apply in_map_iff in Hx as (t & <- & _). exact I. Qed.
Example C96_reproduces_met cf fc lr pc : exists q' st' vals,
  run_stat cf one_day_fit fc lr pc modern ex_sun_stats (QRad (Some ex_bc_day) None "all") = (q', None) /\
  st_radiation modern q' ex_bc "pot_rad_via_bc" None = (st', None) /\ hourly_on st' "glob" 0 = map Fin vals /\ (Rabs (Rmean vals - ex_sun_mean) <= 1 / 100)%R.
Proof.
  destruct ex_sun_fins as [NE MN]. 
  assert (OD : forall i, (i < 1)%nat -> ordinary_day (0 + Z.of_nat i) 0 0 0) by (intros [|i] Hi; [exact equator_day|lia]).
  assert (NEI : forall i, (i < 1)%nat -> fins (values_on (0 + Z.of_nat i) (record_of ex_sun_stats "glob")) <> []) by (intros [|i] Hi; [exact NE|lia]).
  assert (SP : (0 < Rmean (sky_day 0 0 0 0))%R) by apply sky_day_mean, equator_day.
  assert (RS : exists q', run_stat cf one_day_fit fc lr pc modern ex_sun_stats (QRad (Some ex_bc_day) None "all") = (q', None)).
  { cbn [run_stat]. unfold st_radiation_stats.
    change (q_data ex_sun_stats) with (Some ex_sun_frame). change (q_lon ex_sun_stats) with (Some (Fin 0)). change (q_lat ex_sun_stats) with (Some (Fin 0)). change (q_tz ex_sun_stats) with (Some (Fin 0)).
    assert (HH : hourly_index modern (f_index ex_bc_day) = Ok (hours_index 0 1)) by (apply (day_frame_hours modern ex_bc_day 0 1); split; [discriminate|reflexivity]).
    match goal with |- context [calc_radiation_stats ?cf ?m ?e ?d ?a ?b ?c ?dd ?l ?h ?g] => assert (Q : exists g', calc_radiation_stats cf m e d a b c dd l h g = (g', None)); [|destruct Q as [g' Q]; rewrite Q; eexists; reflexivity] end.
    rewrite (run_eq cf one_day_fit modern ex_sun_frame ex_bc_day _ (hours_index 0 1) (Fin 0) (Fin 0) (Fin 0) None "all" (q_glob ex_sun_stats) (or_introl eq_refl) eq_refl HH).
    cbv zeta. change (assoc "ssd" (f_cols ex_bc_day)) with (@None (list xr)). change (assoc "tmin" (f_cols ex_bc_day)) with (Some [Fin 270]). change (assoc "tmax" (f_cols ex_bc_day)) with (Some [Fin 280]). cbv iota.
    change (month_groups "all") with [[1; 2; 3; 4; 5; 6; 7; 8; 9; 10; 11; 12]]. cbn [andb fit_loop].
    match goal with |- context [one_day_fit (filter ?P (join4 ?a ?b ?c ?d))] => pose proof (bristcamp_rows [1; 2; 3; 4; 5; 6; 7; 8; 9; 10; 11; 12] a b c d) as CR; set (rows := filter P (join4 a b c d)) in * end.
    assert (ER : rows = day_rows 0 1 (fun _ => 270%R) (fun _ => 280%R) (fun i => Rmean (sky_day (0 + Z.of_nat i) 0 0 0)) (fun i => Rmean (fins (values_on (0 + Z.of_nat i) (record_of ex_sun_stats "glob"))))).
    { apply (complete_is_day_rows ex_bc_day 0 1 (fun _ => 270%R) (fun _ => 280%R) 0 0 0 (record_of ex_sun_stats "glob") rows); [split; [discriminate|reflexivity]|exact OD|exact ex_sun_all_numeric|exact NEI|exact CR]. }
    rewrite ER. unfold day_rows. cbn [seq map one_day_fit]. change (0 + Z.of_nat 0) with 0. rewrite MN.
    destruct (Rlt_dec 270 280); [|lra]. destruct (Rlt_dec 0 (Rmean (sky_day 0 0 0 0))); [|lra]. destruct (Rle_dec 0 ex_sun_mean) as [|K]; [eexists; reflexivity|].
    exfalso. apply K. unfold ex_sun_mean. apply Rmult_le_pos; lra. }
  destruct RS as (q' & RS). exists q'.
  destruct (C96_reproduces cf one_day_fit fc lr pc modern ex_sun_stats None q' ex_bc 0 1 ex_bc_day (fun _ => 270%R) (fun _ => 280%R) 0 0 0 0 eq_refl eq_refl eq_refl ex_bc_ready) as (st' & vals & A & _ & _ & V & B);
    try assumption; try exact one_day_exact; try exact ex_sun_all_numeric; try (split; reflexivity).
  - repeat split. left. reflexivity.
  - intros [|i] dt Hi E; [|lia]. unfold day_dT, next_day in E. cbn in E. injection E as <-. lra.
  - exists st', (vals O). split; [exact RS|]. split; [exact A|]. destruct (V O ltac:(lia)) as (V1 & _). split; [exact V1|].
    cbn [seq map] in B. change (0 + Z.of_nat 0) with 0 in B. rewrite MN in B. assert (R1 : forall x, Rmean [x] = x) by (intro x; unfold Rmean, Rsum; cbn; lra). rewrite !R1 in B. lra.
Qed.
