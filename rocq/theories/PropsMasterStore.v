(** Property C103: the master-station method when the day's values are written by position. *)
From Coq Require Import ZArith List Bool Lia Reals Lra Sorted.
From Verif Require Import Py Num Cal Series UtilModel SpecBase TimeProofs CascadeModel PrecipModel SpecCascade
  CascadeProofs CascadeExact CascadeFive EqualProofs IndexProofs MasterModel MasterProofs MasterProofs2 MasterStoreModel MasterStore.
Import ListNotations.
Open Scope Z_scope.

(** on days for which the master has exactly the 24 full hours both readings give the same, whatever the
    number type and the way of adding *)
Theorem C103_same_on_complete_days {T} {N : Num T} tot e d0 (amounts : list T) master uniform :
  StronglySorted Z.lt (map fst master) ->
  (forall i, (i < length amounts)%nat ->
     map fst (filter (fun p => fst p / us_day =? d0 + Z.of_nat i) master) = grid ((d0 + Z.of_nat i) * us_day) us_hour 24) ->
  precip_master_station_pos tot e (daily d0 amounts) master uniform
  = precip_master_station_with tot e (daily d0 amounts) master uniform.
Proof. apply station_same. Qed.
Print Assumptions C103_same_on_complete_days.

Definition recorded (master : list (Z * R)) : series xr := map (fun p => (fst p, Fin (snd p))) master.
(** the master's values on day [d] *)
Definition of_day (d : Z) (master : list (Z * R)) : list R := map snd (filter (fun p => fst p / us_day =? d) master).

Lemma recorded_day d master : values_on d (recorded master) = map Fin (of_day d master).
Proof.
  unfold values_on, of_day, recorded. induction master as [|[t v] m IH]; [reflexivity|]. cbn [map filter fst snd].
  destruct (t / us_day =? d); cbn [map snd]; [f_equal|]; exact IH.
Qed.
Lemma usable_Fin r : usable (Fin r) = negb (Reqb r 0).
Proof. unfold usable. cbn. destruct (Reqb r 0); reflexivity. Qed.
Lemma fin_mul1 (a : xr) : (Fin 1 * a)%num = a.
Proof.
  destruct a as [r| | |]; cbn; [f_equal; lra| | |reflexivity]; (destruct (Reqb_spec 1 0); [lra|]).
  - destruct (Rltb_spec 0 1); [reflexivity|lra].
  - destruct (Rltb_spec 1 0); [lra|reflexivity].
Qed.

(** the days that can be written: no precipitation at the master, 24 values, or a single one *)
Definition writable (ms : list R) : Prop := Rsum ms = 0%R \/ length ms = 24%nat \/ length ms = 1%nat.
(** what the day with daily value [a] gets *)
Definition written (uniform : bool) (ms : list R) (a : xr) (hs : list xr) : Prop :=
  (Rsum ms = 0%R -> hs = repeat (if uniform then n1 / n_ofZ 24 * a else n0)%num 24) /\
  (Rsum ms <> 0%R -> length ms = 24%nat -> hs = map (fun m => (Fin (m / Rsum ms) * a)%num) ms) /\
  (Rsum ms <> 0%R -> length ms = 1%nat -> hs = repeat a 24).

Lemma day_vals_spec (master : list (Z * R)) uniform d a :
  match day_vals nansum (recorded master) uniform d a 24 with
  | Some hs => writable (of_day d master) /\ written uniform (of_day d master) a hs
  | None => ~ writable (of_day d master)
  end.
Proof.
  unfold day_vals, total_with. rewrite recorded_day. set (ms := of_day d master). rewrite nansum_Fin, usable_Fin, map_map.
  unfold writable, written. destruct (Reqb_spec (Rsum ms) 0) as [E|E]; cbn [negb].
  - split; [left; exact E|]. split; [intros _; destruct uniform; reflexivity|]. split; intro; contradiction.
  - assert (DV : forall m, (Fin m / Fin (Rsum ms))%num = Fin (m / Rsum ms)) by (intro; apply xdiv_Fin; exact E).
    rewrite map_length. destruct (Nat.eqb_spec (length ms) 24) as [L|L].
    + split; [right; left; exact L|]. split; [intro; contradiction|]. split.
      * intros _ _. apply map_ext. intro m. rewrite DV. reflexivity.
      * intros _ K. rewrite K in L. discriminate.
    + clearbody ms. destruct ms as [|x [|y ms']]; cbn [map].
      * cbn [length]. intros [K|[K|K]]; [contradiction|discriminate K|discriminate K].
      * split; [right; right; reflexivity|]. split; [intro; contradiction|]. split; [intros _ K; discriminate K|].
        intros _ _. rewrite DV. assert (Rsum [x] = x) as -> by (unfold Rsum; cbn; lra).
        assert (X : x <> 0%R) by (intro; apply E; unfold Rsum; cbn; lra).
        replace (x / x)%R with 1%R by (field; exact X). rewrite fin_mul1. reflexivity.
      * intros [K|[K|K]]; [contradiction|contradiction|discriminate K].
Qed.
Lemma recorded_rows (master : list (Z * R)) d : of_day d master <> [] -> rows_on d (recorded master) <> [].
Proof. intros H E. apply H. apply map_eq_nil with (f := Fin). rewrite <- recorded_day. unfold values_on. unfold rows_on in E. rewrite E. reflexivity. Qed.
Lemma recorded_index master : map fst (recorded master) = map fst master.
Proof. unfold recorded. rewrite map_map. reflexivity. Qed.

(** by position: 24 values go to the 24 hours in order, whatever their time stamps; one value goes to every
    hour; any other number of values raises *)
Theorem C103_by_position e d0 (amounts : list xr) (master : list (Z * R)) uniform :
  amounts <> [] -> has_iteritems e = true -> StronglySorted Z.lt (map fst master) ->
  (forall i, (i < length amounts)%nat -> of_day (d0 + Z.of_nat i) master <> []) ->
  ((forall i, (i < length amounts)%nat -> writable (of_day (d0 + Z.of_nat i) master)) ->
     exists out, precip_master_station_pos nansum e (daily d0 amounts) (recorded master) uniform = Ok out /\
       map fst out = hours_index d0 (length amounts) /\
       forall i a, nth_error amounts i = Some a -> written uniform (of_day (d0 + Z.of_nat i) master) a (values_on (d0 + Z.of_nat i) out)) /\
  ((exists i, (i < length amounts)%nat /\ ~ writable (of_day (d0 + Z.of_nat i) master)) ->
     precip_master_station_pos nansum e (daily d0 amounts) (recorded master) uniform = Err ValueError).
Proof.
  intros NE HI SS CV. rewrite <- recorded_index in SS.
  destruct (station_pos nansum e d0 amounts (recorded master) uniform NE HI SS) as [GOOD BAD].
  { intros i Hi. apply recorded_rows, CV, Hi. }
  split.
  - intro W. destruct GOOD as (out & E & I & D).
    { intros i a Hi K. pose proof (day_vals_spec master uniform (d0 + Z.of_nat i) a) as S. rewrite K in S. apply S, W.
      apply nth_error_Some. congruence. }
    exists out. split; [exact E|]. split; [exact I|]. intros i a Hi. specialize (D i a Hi).
    pose proof (day_vals_spec master uniform (d0 + Z.of_nat i) a) as S. rewrite <- D in S. apply S.
  - intros (i & Hi & NW). apply BAD. destruct (nth_error amounts i) as [a|] eqn:E; [|apply nth_error_None in E; lia].
    exists i, a. split; [exact E|]. pose proof (day_vals_spec master uniform (d0 + Z.of_nat i) a) as S.
    destruct (day_vals nansum (recorded master) uniform (d0 + Z.of_nat i) a 24); [destruct S; contradiction|reflexivity].
Qed.
Print Assumptions C103_by_position.

(** by label an hour the master does not have is missing; by position there is no missing hour on a written day *)
Definition one_per_day : list (Z * R) := [(6 * us_hour, 3%R); (us_day + 6 * us_hour, 2%R)].
Definition half_past : list (Z * R) := combine (grid (30 * us_minute) us_hour 24) (repeat 1%R 24).
Definition twelve_hours : list (Z * R) := combine (grid 0 us_hour 12) (repeat 1%R 12).

(** conservation fails on a day with a single master value: the hours carry 24 times the daily value *)
Theorem C103_conservation_refuted : exists master (out : series xr),
  StronglySorted Z.lt (map fst master) /\
  precip_master_station_pos nansum legacy (daily 0 [Fin 5; Fin 1]) (recorded master) true = Ok out /\
  values_on 0 out = repeat (Fin 5) 24 /\ nansum (values_on 0 out) = Fin (24 * 5).
Proof.
  exists one_per_day. destruct (C103_by_position legacy 0 [Fin 5; Fin 1] one_per_day true) as [G _]; [discriminate|reflexivity| | |].
  - cbn. repeat constructor; cbn; lia.
  - intros [|[|i]] H; cbn in H; [discriminate|discriminate|lia].
  - destruct G as (out & E & _ & D).
    + intros [|[|i]] H; cbn in H; [right; right; reflexivity|right; right; reflexivity|lia].
    + exists out. split; [cbn; repeat constructor; cbn; lia|]. split; [exact E|].
      destruct (D 0%nat (Fin 5) eq_refl) as (_ & _ & K). change (values_on 0 out = repeat (Fin 5) 24 /\ nansum (values_on 0 out) = Fin (24 * 5)).
      change (0 + Z.of_nat 0) with 0 in K. rewrite K; [|unfold of_day, one_per_day, Rsum; cbn; lra|reflexivity].
      split; [reflexivity|]. rewrite <- map_repeat, nansum_Fin. f_equal. unfold Rsum. cbn. lra.
Qed.
Print Assumptions C103_conservation_refuted.

(** the two readings differ: values at half past the hour are all lost by label and all kept by position;
    a day of twelve hours is filled with gaps by label and rejected by position *)
Theorem C103_agreement_refuted :
  (exists out1 out2 : series xr,
     precip_master_station_with nansum legacy (daily 0 [Fin 24]) (recorded half_past) true = Ok out1 /\
     values_on 0 out1 = repeat NaN 24 /\
     precip_master_station_pos nansum legacy (daily 0 [Fin 24]) (recorded half_past) true = Ok out2 /\
     values_on 0 out2 = repeat (Fin 1) 24) /\
  precip_master_station_pos nansum legacy (daily 0 [Fin 24]) (recorded twelve_hours) true = Err ValueError /\
  (exists out : series xr, precip_master_station_with nansum legacy (daily 0 [Fin 24]) (recorded twelve_hours) true = Ok out /\
     values_on 0 out = repeat (Fin 2) 12 ++ repeat NaN 12).
Proof.
  assert (S1 : StronglySorted Z.lt (map fst half_past)).
  { unfold half_past. rewrite map_fst_combine by reflexivity. apply grid_sorted. reflexivity. }
  assert (S2 : StronglySorted Z.lt (map fst twelve_hours)).
  { unfold twelve_hours. rewrite map_fst_combine by reflexivity. apply grid_sorted. reflexivity. }
  assert (D1 : of_day 0 half_past = repeat 1%R 24) by reflexivity.
  assert (D2 : of_day 0 twelve_hours = repeat 1%R 12) by reflexivity.
  assert (T1 : Rsum (repeat 1%R 24) = 24%R) by (unfold Rsum; cbn; lra).
  assert (T2 : Rsum (repeat 1%R 12) = 12%R) by (unfold Rsum; cbn; lra).
  assert (L : forall master, StronglySorted Z.lt (map fst master) -> of_day 0 master <> [] -> Rsum (of_day 0 master) <> 0%R ->
    exists out : series xr, precip_master_station_with nansum legacy (daily 0 [Fin 24]) (recorded master) true = Ok out /\
      values_on 0 out = map (fun u => match lookup u (recorded master) with Some v => (v / Fin (Rsum (of_day 0 master)) * Fin 24)%num | None => NaN end)
                            (grid 0 us_hour 24)).
  { intros master SS NE NZ.
    destruct (station_with nansum legacy 0 [Fin 24] (recorded master) true) as (out & E & _ & D); [discriminate|reflexivity| | |].
    - rewrite recorded_index. exact SS.
    - intros [|i] Hi; [|cbn in Hi; lia]. apply recorded_rows. exact NE.
    - exists out. split; [exact E|]. specialize (D 0%nat _ eq_refl). change (0 + Z.of_nat 0) with 0 in D. change (0 * us_day) with 0 in D.
      rewrite D. apply map_ext. intro u. unfold value_with, total_with. rewrite recorded_day, nansum_Fin, usable_Fin.
      destruct (Reqb_spec (Rsum (of_day 0 master)) 0); [contradiction|]. reflexivity. }
  split; [|split].
  - destruct (L half_past S1) as (out1 & E1 & V1); [rewrite D1; discriminate|rewrite D1, T1; lra|].
    destruct (C103_by_position legacy 0 [Fin 24] half_past true) as [G _]; [discriminate|reflexivity|exact S1| |].
    + intros [|i] Hi; [|cbn in Hi; lia]. change (0 + Z.of_nat 0) with 0. rewrite D1. discriminate.
    + destruct G as (out2 & E2 & _ & V2).
      * intros [|i] Hi; [|cbn in Hi; lia]. change (0 + Z.of_nat 0) with 0. rewrite D1. right. left. reflexivity.
      * exists out1, out2. split; [exact E1|]. split; [rewrite V1; reflexivity|]. split; [exact E2|].
        destruct (V2 0%nat _ eq_refl) as (_ & K & _). change (0 + Z.of_nat 0) with 0 in K. rewrite D1, T1 in K.
        rewrite K; [|lra|reflexivity]. rewrite (map_repeat (fun m => (Fin (m / 24) * Fin 24)%num)). f_equal. rewrite xmul_Fin. f_equal. lra.
  - apply (C103_by_position legacy 0 [Fin 24] twelve_hours true); [discriminate|reflexivity|exact S2| |].
    + intros [|i] Hi; [|cbn in Hi; lia]. change (0 + Z.of_nat 0) with 0. rewrite D2. discriminate.
    + exists 0%nat. split; [cbn; lia|]. change (0 + Z.of_nat 0) with 0. rewrite D2. unfold writable. rewrite T2.
      intros [K|[K|K]]; [lra|discriminate K|discriminate K].
  - destruct (L twelve_hours S2) as (out & E & V); [rewrite D2; discriminate|rewrite D2, T2; lra|].
    exists out. split; [exact E|]. rewrite V, D2, T2.
    assert (W : (Fin 1 / Fin 12 * Fin 24)%num = Fin 2).
    { rewrite xdiv_Fin by lra. rewrite xmul_Fin. f_equal. lra. }
    rewrite <- W. reflexivity.
Qed.
Print Assumptions C103_agreement_refuted.

Definition ex_full : list (Z * R) := combine (grid 0 us_hour 48) (repeat 1%R 48).
Example C103_met : StronglySorted Z.lt (map fst ex_full) /\
  (forall i, (i < 2)%nat -> map fst (filter (fun p => fst p / us_day =? 0 + Z.of_nat i) (recorded ex_full)) = grid ((0 + Z.of_nat i) * us_day) us_hour 24) /\
  (forall i, (i < 2)%nat -> of_day (0 + Z.of_nat i) ex_full <> [] /\ writable (of_day (0 + Z.of_nat i) ex_full)).
Proof.
  split; [unfold ex_full; rewrite map_fst_combine by reflexivity; apply grid_sorted; reflexivity|].
  split; intros [|[|i]] Hi; try lia; try reflexivity; (split; [discriminate|right; left; reflexivity]).
Qed.
