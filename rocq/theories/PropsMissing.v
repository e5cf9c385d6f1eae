(** Property C131: missing monthly shifts of the temperature maximum. *)
From Coq Require Import String ZArith List Bool Reals Lia Lra.
From Verif Require Import Py Num Cal Series Frame SpecBase TimeProofs IndexProofs DaysProofs UtilModel UtilModel2 SpecUtil UtilProofs
  PropsNeeds Trans TempModel TempProofs SpecTemp PropsTemp.
Import ListNotations.
Open Scope Z_scope.

Definition is_sine (m : string) : Prop := (m = "sine_min_max" \/ m = "sine_mean" \/ m = "sine")%string.
Definition shift_on (md : list (Z * xr)) (day : Z) : option xr := entry_of (month_of_day day) md.

Lemma mapM_raises {A B} (f : A -> res B) y l : (forall a, In a l -> (exists b, f a = Ok b) \/ f a = Err y) ->
  (exists a, In a l /\ f a = Err y) -> mapM f l = Err y.
Proof.
  induction l as [|x l IH]; intros H (a & I & E); [destruct I|]. cbn [mapM].
  destruct (H x (or_introl eq_refl)) as [(b & Hb)|Hb]; rewrite Hb; cbn [bind]; [|reflexivity].
  destruct I as [->|I]; [congruence|]. rewrite IH; [reflexivity|intros c Hc; apply H; right; exact Hc|exists a; auto].
Qed.
Lemma to_int_either x : (exists k, to_int x = Ok k) \/ to_int x = Err ValueError.
Proof. destruct x; cbn; eauto. Qed.
Lemma shift_lookup md d0 i : lookup (month_of (d0 * us_day + Z.of_nat i * us_day)) md = shift_on md (d0 + Z.of_nat i).
Proof.
  replace (d0 * us_day + Z.of_nat i * us_day) with ((d0 + Z.of_nat i) * us_day) by ring. unfold month_of. rewrite day_start_date. reflexivity.
Qed.

(** the calls before the times of the extremes are used *)
Lemma sine_start e d d0 n method md mc modn st : n <> O -> f_index d = daily_index d0 n -> is_sine method ->
  forall y, (let* locs := locations (daily_index d0 n) "sun_loc_shift" (Some md) (Some st) in
             let* _ := mapM to_int (fst locs) in mapM to_int (snd locs)) = Err y ->
  disaggregate_temperature e d method "sun_loc_shift" modn (Some md) mc (Some st) = Err y.
Proof.
  intros N FI HM y H. unfold disaggregate_temperature.
  replace (String.eqb method "sine_min_max" || String.eqb method "sine_mean" || String.eqb method "sine") with true
    by (destruct HM as [-> |[-> | ->]]; reflexivity).
  cbn [negb orb]. rewrite FI. assert (HI : hourly_index e (daily_index d0 n) = Ok (hours_index d0 n)) by (destruct n; [contradiction|apply hourly_index_daily]).
  rewrite HI. cbn [bind]. destruct (locations _ _ _ _) as [locs|z]; cbn [bind] in H |- *; [|injection H as ->; reflexivity].
  destruct (mapM to_int (fst locs)) as [mins|z]; cbn [bind] in H |- *; [|injection H as ->; reflexivity]. rewrite H. reflexivity.
Qed.

(** a month that is not in the table: KeyError, whatever the other entries are *)
Theorem C131_absent_month e d d0 n method md mc modn st : n <> O -> f_index d = daily_index d0 n -> is_sine method ->
  (exists i, (i < n)%nat /\ shift_on md (d0 + Z.of_nat i) = None) ->
  disaggregate_temperature e d method "sun_loc_shift" modn (Some md) mc (Some st) = Err KeyError.
Proof.
  intros N FI HM (i & Hi & Q). apply (sine_start e d d0 n); try assumption.
  unfold locations. cbn [String.eqb Ascii.eqb Bool.eqb].
  rewrite (mapM_raises _ KeyError); [reflexivity| |].
  - intros t _. destruct (lookup (month_of t) md); eauto.
  - exists (d0 * us_day + Z.of_nat i * us_day). split; [apply grid_In; exists i; auto|]. rewrite shift_lookup, Q. reflexivity.
Qed.
Print Assumptions C131_absent_month.

Lemma mapM_shifts md d0 n : (forall i, (i < n)%nat -> shift_on md (d0 + Z.of_nat i) <> None) ->
  mapM (fun t => match lookup (month_of t) md with Some v => Ok v | None => Err KeyError end) (daily_index d0 n)
  = Ok (map (fun i => match shift_on md (d0 + Z.of_nat i) with Some v => v | None => NaN end) (seq 0 n)).
Proof.
  intro H. unfold daily_index, grid. rewrite mapM_map. apply mapM_Ok. intros i Hi. apply in_seq in Hi.
  rewrite shift_lookup. specialize (H i ltac:(lia)). destruct (shift_on md (d0 + Z.of_nat i)); [reflexivity|congruence].
Qed.
(** a missing shift in a month of the record: ValueError from the conversion of the hours to integers *)
Theorem C131_missing_shift e d d0 n method md mc modn st rise noon : n <> O -> f_index d = daily_index d0 n -> is_sine method ->
  length rise = n -> sun_days st d0 rise noon ->
  (forall i, (i < n)%nat -> shift_on md (d0 + Z.of_nat i) <> None) ->
  (exists i, (i < n)%nat /\ shift_on md (d0 + Z.of_nat i) = Some NaN) ->
  disaggregate_temperature e d method "sun_loc_shift" modn (Some md) mc (Some st) = Err ValueError.
Proof.
  intros N FI HM LN SD HA (i & Hi & Q). apply (sine_start e d d0 n); try assumption.
  destruct (sun_days_table st d0 rise noon SD) as (rows & -> & LR & HR). rewrite LN in *.
  unfold locations. cbn [String.eqb Ascii.eqb Bool.eqb]. rewrite (mapM_shifts md d0 n HA). cbn [bind].
  set (G := fun i => match shift_on md (d0 + Z.of_nat i) with Some v => v | None => NaN end).
  set (deltas := map G (seq 0 n)).
  assert (LD : length deltas = n) by (unfold deltas; rewrite map_length, seq_length; reflexivity).
  rewrite daily_length, LR, LD, Nat.eqb_refl. cbn [negb bind fst snd].
  destruct (mapM to_int (align (sun_col (fun r => xround (sunrise r)) (daily d0 rows)) (daily_index d0 n))) as [mins|y] eqn:E1; cbn [bind].
  2:{ assert (X : forall l y, mapM to_int l = Err y -> y = ValueError).
      { induction l as [|a l IH]; intros z Hz; [discriminate|]. cbn [mapM] in Hz. destruct (to_int_either a) as [(k & K)|K]; rewrite K in Hz; cbn [bind] in Hz; [|congruence].
        destruct (mapM to_int l) as [ks|z'] eqn:EL; cbn [bind] in Hz; [discriminate|]. rewrite (IH _ eq_refl) in Hz. congruence. }
      rewrite (X _ _ E1). reflexivity. }
  apply mapM_raises; [intros a _; apply to_int_either|]. exists NaN. split; [|reflexivity].
  set (r0 := {| sunrise := NaN; sunnoon := NaN; sunset := NaN; daylength := NaN |}).
  assert (EM : map (fun p => (fst (fst p), xround (sunnoon (snd (fst p)) + snd p)%num)) (combine (daily d0 rows) deltas)
               = daily d0 (map (fun j => xround (sunnoon (nth j rows r0) + G j)%num) (seq 0 n))).
  { rewrite daily_seq. rewrite (TempProofs.combine_seq (daily d0 rows) deltas (0, r0) NaN n) by (rewrite ?daily_length; assumption).
    rewrite map_map. apply map_ext_in. intros j Hj. apply in_seq in Hj. cbn [fst snd].
    assert (ED : daily d0 rows = map (fun j => ((d0 + Z.of_nat j) * us_day, nth j rows r0)) (seq 0 n))
      by (rewrite <- daily_seq, <- LR, <- list_seq; reflexivity).
    assert (EN : nth j (daily d0 rows) (0, r0) = ((d0 + Z.of_nat j) * us_day, nth j rows r0)).
    { rewrite ED. set (g := fun j => ((d0 + Z.of_nat j) * us_day, nth j rows r0)).
      rewrite (nth_indep _ (0, r0) (g O)) by (rewrite map_length, seq_length; lia). rewrite (map_nth g), seq_nth by lia. reflexivity. }
    rewrite EN. cbn [fst snd]. unfold deltas. rewrite (nth_indep _ NaN (G O)) by (rewrite map_length, seq_length; lia). rewrite (map_nth G), seq_nth by lia. reflexivity. }
  rewrite EM, align_daily by (rewrite map_length, seq_length; reflexivity).
  rewrite !sun_col_daily, !align_daily by (rewrite map_length; exact LR).
  set (a := map (fun r => xround (sunrise r)) rows). set (b := map _ (seq 0 n)). set (c := map (fun r => (xround (sunnoon r) + n_ofZ 2)%num) rows).
  assert (LA : length a = n) by (unfold a; rewrite map_length; exact LR). assert (LB : length b = n) by (unfold b; rewrite map_length, seq_length; reflexivity). assert (LC : length c = n) by (unfold c; rewrite map_length; exact LR).
  rewrite (TempProofs.combine_seq a b NaN NaN n LA LB), (TempProofs.combine_seq _ c (NaN, NaN) NaN n) by (rewrite ?map_length, ?seq_length; auto).
  rewrite map_map. apply in_map_iff. exists i. split; [|apply in_seq; lia].
  set (g := fun j => (nth j a NaN, nth j b NaN)). rewrite (nth_indep _ (NaN, NaN) (g O)) by (rewrite map_length, seq_length; lia). rewrite (map_nth g), seq_nth by lia. unfold g.
  assert (EB : nth i b NaN = NaN).
  { unfold b. set (h := fun j => xround (sunnoon (nth j rows r0) + G j)%num). rewrite (nth_indep _ NaN (h O)) by (rewrite map_length, seq_length; lia).
    rewrite (map_nth h), seq_nth by lia. unfold h, G. cbn [Nat.add]. rewrite Q. destruct (sunnoon (nth i rows r0)); reflexivity. }
  cbn [Nat.add]. rewrite EB. destruct (nth i a NaN); reflexivity.
Qed.
Print Assumptions C131_missing_shift.

(** entries for other months do not matter *)
Theorem C131_other_months e d d0 n method time md md' mc modn sun : n <> O -> f_index d = daily_index d0 n ->
  (forall i, (i < n)%nat -> shift_on md (d0 + Z.of_nat i) = shift_on md' (d0 + Z.of_nat i)) ->
  disaggregate_temperature e d method time modn (Some md) mc sun = disaggregate_temperature e d method time modn (Some md') mc sun.
Proof.
  intros N FI H. unfold disaggregate_temperature.
  assert (E : locations (f_index d) time (Some md) sun = locations (f_index d) time (Some md') sun).
  { unfold locations. destruct (String.eqb time "fix"), (String.eqb time "sun_loc"), (String.eqb time "sun_loc_shift"); try reflexivity.
    destruct sun as [st|]; [|reflexivity]. rewrite FI. f_equal. apply mapM_ext. intros t Ht. apply grid_In in Ht as (i & Hi & ->).
    rewrite !shift_lookup, (H i Hi). reflexivity. }
  rewrite E. reflexivity.
Qed.
Print Assumptions C131_other_months.

(** the calibration: a record of k days from c0, with the hour of the maximum of each day that has one *)
Definition in_record (c0 : Z) (k : nat) (m : Z) : bool := existsb (fun i => month_of_day (c0 + Z.of_nat i) =? m) (seq 0 k).
Definition has_maximum (c0 : Z) (k : nat) (hmax : nat -> option nat) (m : Z) : bool :=
  existsb (fun i => (month_of_day (c0 + Z.of_nat i) =? m) && match hmax i with Some _ => true | None => false end) (seq 0 k).

Lemma flat_map_empty {A B} (f : A -> list B) l : flat_map f l = [] -> forall a, In a l -> f a = [].
Proof. intros H a I. destruct (f a) as [|b r] eqn:E; [reflexivity|]. exfalso. assert (X : In b (flat_map f l)) by (apply in_flat_map; exists a; split; [exact I|rewrite E; left; reflexivity]). rewrite H in X. destruct X. Qed.
Lemma calibrated_entry (f : Z -> xr) c0 k lon lat tz hmax m :
  (forall t, match f t with Fin _ | NaN => True | _ => False end) ->
  (forall i, (i < k)%nat -> match hmax i with
     | Some h => first_max_hour (day_values f (c0 + Z.of_nat i)) h
     | None => forall h, (h < 24)%nat -> day_values f (c0 + Z.of_nat i) h = NaN end) ->
  match entry_of m (get_shift_by_data (map (fun t => (t, f t)) (hours_index c0 k)) (Fin lon) (Fin lat) (Fin tz)) with
  | None => in_record c0 k m = false
  | Some x => in_record c0 k m = true /\ if has_maximum c0 k hmax m then exists r, x = Fin r else x = NaN
  end.
Proof.
  intros H1 H2. rewrite (C73_monthly_shift f c0 k lon lat tz hmax m H1 H2). cbv zeta. unfold in_record, has_maximum.
  destruct (existsb (fun i => month_of_day (c0 + Z.of_nat i) =? m) (seq 0 k)); [|reflexivity]. split; [reflexivity|].
  set (F := fun i => if month_of_day (c0 + Z.of_nat i) =? m then match hmax i with Some h => _ | None => _ end else []).
  destruct (existsb _ (seq 0 k)) eqn:E.
  - apply existsb_exists in E as (i & Hi & Q). apply andb_true_iff in Q as [Q1 Q2].
    destruct (flat_map F (seq 0 k)) as [|x l] eqn:EF; [|eauto]. pose proof (flat_map_empty _ _ EF i Hi) as X. unfold F in X. rewrite Q1 in X. destruct (hmax i); discriminate.
  - destruct (flat_map F (seq 0 k)) as [|x l] eqn:EF; [reflexivity|]. exfalso. assert (X : In x (flat_map F (seq 0 k))) by (rewrite EF; left; reflexivity).
    apply in_flat_map in X as (i & Hi & X). rewrite <- not_true_iff_false in E. apply E, existsb_exists. exists i. split; [exact Hi|]. unfold F in X.
    destruct (month_of_day (c0 + Z.of_nat i) =? m); [|destruct X]. destruct (hmax i); [reflexivity|destruct X].
Qed.
(** calibrated shifts, any record: the outcome of the disaggregation, decided by the months *)
Theorem C131_calibrated e d d0 tmin tmax temp method mc modn st rise noon (f : Z -> xr) c0 k lon lat tz hmax :
  temp <> [] -> temp_frame d d0 tmin tmax temp -> is_sine method -> length rise = length temp -> sun_days st d0 rise noon ->
  (forall t, match f t with Fin _ | NaN => True | _ => False end) ->
  (forall i, (i < k)%nat -> match hmax i with
     | Some h => first_max_hour (day_values f (c0 + Z.of_nat i)) h
     | None => forall h, (h < 24)%nat -> day_values f (c0 + Z.of_nat i) h = NaN end) ->
  let months := map (fun i => month_of_day (d0 + Z.of_nat i)) (seq 0 (length temp)) in
  let md := get_shift_by_data (map (fun t => (t, f t)) (hours_index c0 k)) (Fin lon) (Fin lat) (Fin tz) in
  let out := disaggregate_temperature e d method "sun_loc_shift" modn (Some md) mc (Some st) in
  if negb (forallb (in_record c0 k) months) then out = Err KeyError
  else if negb (forallb (has_maximum c0 k hmax) months) then out = Err ValueError
  else exists hours, out = Ok hours /\ map fst hours = hours_index d0 (length temp).
Proof.
  intros NE TF HM LR SD H1 H2 months md out. set (n := length temp) in *. pose proof (proj1 TF) as FI. fold n in FI.
  assert (N : n <> O) by (unfold n; destruct temp; [contradiction|discriminate]).
  assert (C : forall day, match shift_on md day with
     | None => in_record c0 k (month_of_day day) = false
     | Some x => in_record c0 k (month_of_day day) = true /\ if has_maximum c0 k hmax (month_of_day day) then exists r, x = Fin r else x = NaN end)
    by (intro day; exact (calibrated_entry f c0 k lon lat tz hmax (month_of_day day) H1 H2)).
  assert (NF : forall p, forallb p months = false -> exists i, (i < n)%nat /\ p (month_of_day (d0 + Z.of_nat i)) = false).
  { intros p. unfold months. intro H. destruct (existsb (fun i => negb (p (month_of_day (d0 + Z.of_nat i)))) (seq 0 n)) eqn:E.
    - apply existsb_exists in E as (i & Hi & Q). apply in_seq in Hi. exists i. split; [lia|]. apply negb_true_iff. exact Q.
    - exfalso. rewrite <- not_true_iff_false in H. apply H. rewrite forallb_forall. intros m Hm. apply in_map_iff in Hm as (i & <- & Hi).
      rewrite <- not_true_iff_false in E. destruct (p _) eqn:Q; [reflexivity|]. exfalso. apply E, existsb_exists. exists i. split; [exact Hi|]. rewrite Q. reflexivity. }
  assert (YF : forall p, forallb p months = true -> forall i, (i < n)%nat -> p (month_of_day (d0 + Z.of_nat i)) = true).
  { intros p H i Hi. rewrite forallb_forall in H. apply H. apply in_map_iff. exists i. split; [reflexivity|apply in_seq; lia]. }
  destruct (forallb (in_record c0 k) months) eqn:E1; cbn [negb].
  2:{ destruct (NF _ E1) as (i & Hi & Q). apply (C131_absent_month e d d0 n); try assumption. exists i. split; [exact Hi|].
      specialize (C (d0 + Z.of_nat i)). destruct (shift_on md (d0 + Z.of_nat i)); [destruct C; congruence|reflexivity]. }
  assert (P : forall i, (i < n)%nat -> shift_on md (d0 + Z.of_nat i) <> None).
  { intros i Hi Q. specialize (C (d0 + Z.of_nat i)). rewrite Q in C. rewrite (YF _ E1 i Hi) in C. discriminate. }
  destruct (forallb (has_maximum c0 k hmax) months) eqn:E2; cbn [negb].
  2:{ destruct (NF _ E2) as (i & Hi & Q). apply (C131_missing_shift e d d0 n method md mc modn st rise noon); try assumption. exists i. split; [exact Hi|].
      specialize (C (d0 + Z.of_nat i)). specialize (P i Hi). destruct (shift_on md (d0 + Z.of_nat i)); [|congruence]. rewrite Q in C. destruct C as [_ ->]. reflexivity. }
  set (delta := fun m => match entry_of m md with Some (Fin r) => r | _ => 0%R end).
  set (md' := map (fun j => (Z.of_nat j, Fin (delta (Z.of_nat j)))) (seq 1 12)).
  assert (S : shifts md' delta).
  { intros m Hm. assert (X : m = 1 \/ m = 2 \/ m = 3 \/ m = 4 \/ m = 5 \/ m = 6 \/ m = 7 \/ m = 8 \/ m = 9 \/ m = 10 \/ m = 11 \/ m = 12) by lia.
    unfold md'. generalize delta. intro dl. decompose [or] X; subst; reflexivity. }
  unfold out. rewrite (C131_other_months e d d0 n method "sun_loc_shift" md md' mc modn (Some st) N FI).
  - destruct (locations_spec st d0 rise noon (Some md') delta "sun_loc_shift" SD) as (mins & maxs & (ml & xl & R1 & R2 & R3) & L1 & L2 & _); [right; right; split; [reflexivity|exists md'; split; [reflexivity|exact S]]|].
    rewrite LR in *. destruct (sine_day e d d0 tmin tmax temp method "sun_loc_shift" modn (Some md') mc st ml xl mins maxs NE TF HM R1 R2 R3 L1 L2 (proj2 (proj2 (proj2 (proj2 SD))))) as (o & O1 & O2 & _). eauto.
  - intros i Hi. specialize (C (d0 + Z.of_nat i)). specialize (P i Hi). unfold shift_on at 2. rewrite (S _ (month_range _)). unfold delta. unfold shift_on in *.
    destruct (entry_of (month_of_day (d0 + Z.of_nat i)) md) as [x|]; [|congruence]. rewrite (YF _ E2 i Hi) in C. destruct C as [_ [r ->]]. reflexivity.
Qed.
Print Assumptions C131_calibrated.

(** one day, 1970-01-01: a record of February, a January without values, a January with a maximum at 14 *)
Definition one_sun : list (Z * sun_row) := [(0, {| sunrise := Fin 6; sunnoon := Fin 12; sunset := Fin 18; daylength := Fin 12 |})].
Definition one_frame : dframe xr := {| f_index := [0]; f_cols := [("tmin", [Fin 1]); ("tmax", [Fin 9]); ("temp", [Fin 4])]%string |}.
Lemma one_sun_days : sun_days one_sun 0 [6%R] [12%R].
Proof. repeat split; try reflexivity. constructor; [|constructor]. exists 12%R. split; [reflexivity|lra]. Qed.
Lemma one_temp_frame : temp_frame one_frame 0 [Fin 1] [Fin 9] [Fin 4].
Proof. repeat split; reflexivity. Qed.
Example C131_met e :
  let run f c0 := disaggregate_temperature e one_frame "sine" "sun_loc_shift" true
    (Some (get_shift_by_data (map (fun t => (t, f t)) (hours_index c0 1)) (Fin 11) (Fin 47) (Fin 1))) None (Some one_sun) in
  let peak t := if hour_of t =? 14 then Fin 1 else Fin 0 in
  run (fun _ => NaN) 31 = Err KeyError /\ run (fun _ => NaN) 0 = Err ValueError /\
  exists hours, run peak 0 = Ok hours /\ map fst hours = hours_index 0 1.
Proof.
  assert (NE : [Fin 4] <> []) by discriminate. assert (HS : is_sine "sine") by (right; right; reflexivity).
  assert (J : in_record 31 1 1 = false) by reflexivity. assert (J0 : in_record 0 1 1 = true) by reflexivity.
  assert (J1 : has_maximum 0 1 (fun _ => None) 1 = false) by reflexivity. assert (J2 : has_maximum 0 1 (fun _ => Some 14%nat) 1 = true) by reflexivity.
  split; [|split].
  - pose proof (C131_calibrated e one_frame 0 [Fin 1] [Fin 9] [Fin 4] "sine" None true one_sun [6%R] [12%R] (fun _ => NaN) 31 1 11 47 1 (fun _ => None)
      NE one_temp_frame HS eq_refl one_sun_days ltac:(intro; exact I) ltac:(intros i Hi h Hh; reflexivity)) as H.
    cbv zeta in H. cbn [length seq map forallb] in H. change (month_of_day (0 + Z.of_nat 0)) with 1 in H. rewrite J in H. exact H.
  - pose proof (C131_calibrated e one_frame 0 [Fin 1] [Fin 9] [Fin 4] "sine" None true one_sun [6%R] [12%R] (fun _ => NaN) 0 1 11 47 1 (fun _ => None)
      NE one_temp_frame HS eq_refl one_sun_days ltac:(intro; exact I) ltac:(intros i Hi h Hh; reflexivity)) as H.
    cbv zeta in H. cbn [length seq map forallb] in H. change (month_of_day (0 + Z.of_nat 0)) with 1 in H. rewrite J0, J1 in H. exact H.
  - pose proof (C131_calibrated e one_frame 0 [Fin 1] [Fin 9] [Fin 4] "sine" None true one_sun [6%R] [12%R] (fun t => if hour_of t =? 14 then Fin 1 else Fin 0) 0 1 11 47 1 (fun _ => Some 14%nat)
      NE one_temp_frame HS eq_refl one_sun_days ltac:(intro t; cbv beta; destruct (hour_of t =? 14); exact I) ltac:(intros i Hi; replace i with O by lia; exact C73_met)) as H.
    cbv zeta in H. cbn [length seq map forallb] in H. change (month_of_day (0 + Z.of_nat 0)) with 1 in H. rewrite J0, J2 in H. exact H.
Qed.
