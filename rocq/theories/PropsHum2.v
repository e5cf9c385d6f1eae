(** Property C47 for hourly temperatures given on any index. *)
From Coq Require Import String ZArith List Bool Lia Reals Lra Sorted.
From Verif Require Import Py Num Cal Series UtilModel UtilModel2 Trans Frame TempModel RadModel HumModel SpecBase SpecUtil SpecTemp SpecRad SpecHum TimeProofs IndexProofs
  DaysProofs ThermoProofs TempProofs TempCourse RadProofs RadStats CourseProofs InterpProofs JsonProofs HumProofs PropsHum.
Import ListNotations.
Open Scope string_scope.
Open Scope Z_scope.
Open Scope list_scope.

Definition rising (s : series xr) : Prop := StronglySorted Z.lt (map fst s).
(** the value of [a op b] at a label *)
Definition both (f : xr -> xr -> xr) (a b : option xr) : option xr :=
  match a, b with Some x, Some y => Some (f x y) | None, None => None | _, _ => Some NaN end.

Lemma same_labels_eq a b : same_labels a b = true -> a = b.
Proof.
  revert b. induction a as [|x a IH]; intros [|y b] H; try discriminate; [reflexivity|]. cbn in H. apply andb_true_iff in H as [E H].
  apply Z.eqb_eq in E. subst. f_equal. apply IH, H.
Qed.
Lemma lookup_combine_op (f : xr -> xr -> xr) t (a : series xr) : forall b : series xr, map fst a = map fst b ->
  lookup t (combine (map fst a) (map (fun p => f (fst p) (snd p)) (combine (map snd a) (map snd b)))) = both f (lookup t a) (lookup t b).
Proof.
  induction a as [|[u x] a IH]; intros [|[w y] b] H; try discriminate; [reflexivity|]. cbn [map fst snd] in H. injection H as <- H.
  cbn [map fst snd combine lookup]. destruct (u =? t); [reflexivity|]. apply IH, H.
Qed.
Lemma op_at (f : xr -> xr -> xr) (a b : series xr) : rising a -> rising b ->
  rising (series_op f a b) /\ forall t, lookup t (series_op f a b) = both f (lookup t a) (lookup t b).
Proof.
  intros SA SB. unfold series_op, index, values. destruct (same_labels (map fst a) (map fst b)) eqn:SL.
  - apply same_labels_eq in SL. split; [|intro t; apply lookup_combine_op, SL]. unfold rising.
    rewrite map_fst_combine; [exact SA|]. rewrite !map_length, combine_length, !map_length. apply (f_equal (@List.length Z)) in SL. rewrite !map_length in SL. lia.
  - split.
    + unfold rising. rewrite map_map. cbn [fst]. rewrite map_id. apply (labels_sorted (map fst a ++ map fst b)).
    + intro t. set (g := fun t => match lookup t a with Some x => match lookup t b with Some y => f x y | None => n_nan end | None => n_nan end).
      destruct (in_dec Z.eq_dec t (union_labels (map fst a) (map fst b))) as [I|I].
      * etransitivity; [exact (lookup_map_id g _ _ I)|]. change (In t (labels_of (map fst a ++ map fst b))) in I. apply (proj1 (labels_In t (map fst a ++ map fst b))) in I. apply in_app_iff in I. unfold g, both.
        destruct (lookup t a) eqn:EA; destruct (lookup t b) eqn:EB; try reflexivity. exfalso. apply lookup_none in EA. apply lookup_none in EB. tauto.
      * assert (N : ~ In t (map fst a ++ map fst b)) by (intro C; apply I; apply (proj2 (labels_In t (map fst a ++ map fst b))), C).
        rewrite in_app_iff in N. assert (EA : lookup t a = None) by (apply lookup_none; tauto). assert (EB : lookup t b = None) by (apply lookup_none; tauto).
        rewrite EA, EB. apply lookup_none. rewrite map_map. cbn [fst]. rewrite map_id. exact I.
Qed.

(** hours the temperature covers get the value between the daily extremes, all other labels of either index are missing *)
Theorem C47_any_hours e d d0 n hmin hmax tmin tmax (temp : series xr) a0 a1 kr mhp :
  day_frame d d0 n -> has_column d "hum_min" hmin -> has_column d "hum_max" hmax -> has_column d "tmin" tmin -> has_column d "tmax" tmax ->
  StronglySorted Z.lt (map fst temp) ->
  exists out, disaggregate_humidity e d "min_max" (Some temp) a0 a1 kr mhp false = Ok out /\
    StronglySorted Z.lt (map fst out) /\ (forall t, In t (map fst out) <-> In t (map fst temp) \/ In t (hours_index d0 n)) /\
    (forall t, In t (map fst out) -> ~ (In t (map fst temp) /\ In t (hours_index d0 n)) -> entry_of t out = Some NaN) /\
    forall i h T lo hi a b, (i < n)%nat -> (h < 24)%nat -> entry_of (stamp (d0 + Z.of_nat i) h) temp = Some (Fin T) ->
      nth i tmin NaN = Fin lo -> nth i tmax NaN = Fin hi -> nth i hmin NaN = Fin a -> nth i hmax NaN = Fin b ->
      (lo < hi)%R -> (lo <= T <= hi)%R -> (0 <= a <= b)%R -> (b <= 100)%R ->
      exists v, entry_of (stamp (d0 + Z.of_nat i) h) out = Some (Fin v) /\ (a <= v <= b)%R /\ ((hi - lo) * (b - v) = (T - lo) * (b - a))%R.
Proof.
  intros F H1 H2 H3 H4 ST. destruct (column_daily d d0 n _ _ F H1) as [E1 L1]. destruct (column_daily d d0 n _ _ F H2) as [E2 L2].
  destruct (column_daily d d0 n _ _ F H3) as [E3 L3]. destruct (column_daily d d0 n _ _ F H4) as [E4 L4]. pose proof (proj1 F) as NE.
  set (hours := hours_index d0 n). set (col := fun l : list xr => map (fun t => (t, at_day d0 l NaN t)) hours).
  set (raw := series_op n_add (col hmax) (series_op n_mul (series_op n_div (series_op n_sub temp (col tmin)) (series_op n_sub (col tmax) (col tmin))) (series_op n_sub (col hmin) (col hmax)))).
  exists (map (fun p => (fst p, clip1 n0 (n_ofZ 100) (snd p))) raw). split.
  { unfold disaggregate_humidity, disaggregate_humidity_gen. cbn [existsb String.eqb Ascii.eqb Bool.eqb orb negb].
    unfold raw_humidity. cbn [String.eqb Ascii.eqb Bool.eqb orb]. rewrite (assoc_has _ _ _ H1), (assoc_has _ _ _ H2), E1, E2, E3, E4. cbn [bind].
    rewrite !(distribute_daily e d0 n) by assumption. cbn [bind]. reflexivity. }
  assert (RC : forall l, rising (col l)) by (intro l; unfold rising, col; rewrite map_map; cbn [fst]; rewrite map_id; apply grid_sorted; reflexivity).
  destruct (op_at n_sub temp (col tmin) ST (RC _)) as [S1 V1]. destruct (op_at n_sub _ _ (RC tmax) (RC tmin)) as [S2 V2]. destruct (op_at n_sub _ _ (RC hmin) (RC hmax)) as [S3 V3].
  destruct (op_at n_div _ _ S1 S2) as [S4 V4]. destruct (op_at n_mul _ _ S4 S3) as [S5 V5]. destruct (op_at n_add _ _ (RC hmax) S5) as [S6 V6]. fold raw in S6, V6.
  assert (V : forall t, lookup t raw = both n_add (lookup t (col hmax)) (both n_mul (both n_div (both n_sub (lookup t temp) (lookup t (col tmin))) (both n_sub (lookup t (col tmax)) (lookup t (col tmin))))
     (both n_sub (lookup t (col hmin)) (lookup t (col hmax))))) by (intro t; rewrite V6, V5, V4, V1, V2, V3; reflexivity).
  clear S1 V1 S2 V2 S3 V3 S4 V4 S5 V5 V6.
  assert (CI : forall l t, In t hours -> lookup t (col l) = Some (at_day d0 l NaN t)) by (intros l t I; exact (lookup_map_id (at_day d0 l NaN) hours t I)).
  assert (CO : forall l t, ~ In t hours -> lookup t (col l) = None) by (intros l t I; apply lookup_none; unfold col; rewrite map_map; cbn [fst]; rewrite map_id; exact I).
  assert (IO : forall t, In t (map fst raw) <-> In t (map fst temp) \/ In t hours).
  { intro t. assert (Q : In t (map fst raw) <-> lookup t raw <> None).
    { rewrite lookup_none. destruct (in_dec Z.eq_dec t (map fst raw)); tauto. }
    rewrite Q, V. destruct (in_dec Z.eq_dec t hours) as [I|I]; [rewrite !CI by exact I|rewrite !CO by exact I]; destruct (lookup t temp) eqn:ET; cbn [both];
      (split; [intros _|intros _; discriminate]) || (split; [intro C; congruence|]); try (right; exact I).
    - left. apply in_map_iff. clear -ET. induction temp as [|[u w] r IH]; [discriminate|]. cbn [lookup] in ET. destruct (u =? t) eqn:E; [apply Z.eqb_eq in E; exists (u, w); split; [exact E|left; reflexivity]|].
      destruct (IH ET) as (q & A & B). exists q. split; [exact A|right; exact B].
    - apply lookup_none in ET. intros [C|C]; contradiction. }
  split; [rewrite map_map; cbn [fst]; exact S6|]. split; [intro t; rewrite map_map; cbn [fst]; apply IO|]. split.
  - intros t It NB. rewrite map_map in It. cbn [fst] in It. change (In t (map fst raw)) in It. rewrite IO in It. rewrite entry_lookup, lookup_map_snd, V.
    destruct (in_dec Z.eq_dec t hours) as [I|I].
    + assert (ET : lookup t temp = None) by (apply lookup_none; tauto). rewrite ET, !CI by exact I. cbn [both option_map].
      destruct (at_day d0 tmax NaN t), (at_day d0 tmin NaN t), (at_day d0 hmin NaN t), (at_day d0 hmax NaN t); reflexivity.
    + rewrite !CO by exact I. destruct (lookup t temp) eqn:ET; [reflexivity|]. apply lookup_none in ET. tauto.
  - intros i h T lo hi a b Hi Hh ET Q1 Q2 Q3 Q4 HL HT HA HB. rewrite entry_lookup in *. rewrite lookup_map_snd, V, ET.
    assert (I : In (stamp (d0 + Z.of_nat i) h) hours) by (apply in_hours; exists i, h; auto).
    rewrite !CI by exact I. rewrite !at_day_stamp by exact Hh. rewrite Q1, Q2, Q3, Q4. cbn [both option_map].
    rewrite !xsub_Fin, xdiv_Fin by lra. rewrite xmul_Fin, xadd_Fin, clip1_limited. cbn [limited_x].
    set (q := ((T - lo) / (hi - lo))%R). assert (HQ : (0 <= q <= 1)%R).
    { unfold q. split; [apply Rmult_le_pos; [lra|]; left; apply Rinv_0_lt_compat; lra|].
      apply Rmult_le_reg_r with (hi - lo)%R; [lra|]. unfold Rdiv. rewrite Rmult_assoc, Rinv_l by lra. lra. }
    assert (EQ : (q * (hi - lo) = T - lo)%R) by (unfold q; field; lra).
    exists (b + q * (a - b))%R. assert (B : (a <= b + q * (a - b) <= b)%R) by nra.
    rewrite limited_id by lra. split; [reflexivity|]. split; [exact B|]. replace ((hi - lo) * (b - (b + q * (a - b))))%R with ((q * (hi - lo)) * (b - a))%R by ring. rewrite EQ. reflexivity.
Qed.
Print Assumptions C47_any_hours.

(** a temperature record of three hours that begins before the first day *)
Example C47_any_hours_met : exists out,
  disaggregate_humidity modern hum_frame "min_max" (Some [(stamp 18999 23, Fin 279); (stamp 19000 4, Fin 285); (stamp 19001 2, Fin 281)]) None None None None false = Ok out /\
  entry_of (stamp 18999 23) out = Some NaN /\ entry_of (stamp 19000 5) out = Some NaN /\
  entry_of (stamp 19000 4) out = Some (Fin 55) /\ entry_of (stamp 19001 2) out = Some (Fin 80).
Proof.
  set (temp := [(stamp 18999 23, Fin 279); (stamp 19000 4, Fin 285); (stamp 19001 2, Fin 281)]).
  assert (ST : StronglySorted Z.lt (map fst temp)) by (repeat constructor).
  destruct (C47_any_hours modern hum_frame 19000 2 [Fin 10; Fin 40] [Fin 100; Fin 80] [Fin 280; Fin 281] [Fin 290; Fin 285] temp None None None None hum_frame_days)
    as (out & E & _ & I & M & V); [apply hum_frame_col; reflexivity..|exact ST|]. exists out. split; [exact E|].
  assert (NH : ~ In (stamp 18999 23) (hours_index 19000 2)).
  { intro C. apply in_hours in C as (i & h & Hi & Hh & C). apply stamp_inj in C; lia. }
  split; [apply M; [apply I; left; left; reflexivity|tauto]|]. split.
  - apply M; [apply I; right; apply in_hours; exists 0%nat, 5%nat; repeat split; lia|]. intros [C _]. cbn in C. destruct C as [C|[C|[C|[]]]]; discriminate.
  - split.
    + destruct (V 0%nat 4%nat 285 280 290 10 100)%R as (v & EV & _ & K); try reflexivity; try lia; try lra. change (19000 + Z.of_nat 0) with 19000 in EV. rewrite EV. do 2 f_equal. lra.
    + destruct (V 1%nat 2%nat 281 281 285 40 80)%R as (v & EV & _ & K); try reflexivity; try lia; try lra. change (19000 + Z.of_nat 1) with 19001 in EV. rewrite EV. do 2 f_equal. lra.
Qed.
