(** Properties C34-C40, C71-C73: temperature. *)
From Coq Require Import String ZArith List Bool Lia Reals Lra Sorted.
From Verif Require Import Py Num Cal Series UtilModel UtilModel2 Trans Frame TempModel SpecBase SpecUtil SpecTemp TimeProofs IndexProofs
  DaysProofs SunProofs CourseProofs TempProofs TempCourse TempShift.
Import ListNotations.
Open Scope Z_scope.

(** the two sine methods, all options: values of every hour, with the times of minimum and maximum *)
Lemma sine_hours e d d0 tmin tmax temp method mmt modn md delta mc st rise noon : temp <> [] ->
  temp_frame d d0 tmin tmax temp -> (method = "sine_min_max" \/ method = "sine_mean" \/ method = "sine")%string ->
  sun_days st d0 rise noon -> length rise = length temp -> usable mmt md delta ->
  exists out, disaggregate_temperature e d method mmt modn md mc (Some st) = Ok out /\
    map fst out = hours_index d0 (length temp) /\
    forall i, (i < length temp)%nat -> exists mins maxs,
      located (nth i rise 0%R) (nth i noon 0%R) (delta (month_of_day (d0 + Z.of_nat i))) mmt (nth i mins 0) (nth i maxs 0) /\
      values_on (d0 + Z.of_nat i) out
      = map (fun h => sine_hour (if String.eqb method "sine_mean" then SineMean else SineMinMax) modn
                                (mkrow mins maxs tmin tmax temp i) (Z.of_nat h)) (seq 0 24).
Proof.
  intros NE F HM HS LR HU. destruct (locations_spec st d0 rise noon md delta mmt HS HU) as (mins & maxs & (ml & xl & E & E1 & E2) & L1 & L2 & HL).
  rewrite LR in *.
  destruct (sine_day e d d0 tmin tmax temp method mmt modn md mc st ml xl mins maxs) as (out & EO & EI & EV); try assumption; [apply HS|].
  exists out. split; [exact EO|]. split; [exact EI|]. intros i Hi. exists mins, maxs. split; [apply HL, Hi|apply EV, Hi].
Qed.
Lemma nth_seq24 {A} (f : nat -> A) h d : (h < 24)%nat -> nth h (map f (seq 0 24)) d = f h.
Proof. intro H. rewrite (nth_indep _ d (f O)) by (rewrite map_length, seq_length; lia). rewrite (map_nth f), seq_nth by lia. reflexivity. Qed.
Lemma sine_kind_minmax method : sine_method method -> String.eqb method "sine_mean" = false /\ (method = "sine_min_max" \/ method = "sine_mean" \/ method = "sine")%string.
Proof. intros [-> | ->]; split; auto. Qed.
Lemma cos_bounds x : (-1 <= cos x <= 1)%R.
Proof. apply COS_bound. Qed.

(** ** C34 *)
Theorem C34_between e d d0 tmin tmax temp method mmt md delta mc st rise noon : temp <> [] ->
  temp_frame d d0 tmin tmax temp -> sine_method method -> sun_days st d0 rise noon -> length rise = length temp -> usable mmt md delta ->
  exists out, disaggregate_temperature e d method mmt false md mc (Some st) = Ok out /\
    map fst out = hours_index d0 (length temp) /\
    forall i h lo1 lo2 hi1 hi2, (i < length temp)%nat -> (h < 24)%nat ->
      nth i tmin NaN = Fin lo1 -> next_day tmin i = Fin lo2 -> prev_day tmax i = Fin hi1 -> nth i tmax NaN = Fin hi2 ->
      (Rmax lo1 lo2 <= Rmin hi1 hi2)%R ->
      exists v, nth h (values_on (d0 + Z.of_nat i) out) NaN = Fin v /\ (Rmin lo1 lo2 <= v <= Rmax hi1 hi2)%R.
Proof.
  intros NE F HM HS LR HU. destruct (sine_kind_minmax method HM) as [EK HM'].
  destruct (sine_hours e d d0 tmin tmax temp method mmt false md delta mc st rise noon NE F HM' HS LR HU) as (out & EO & EI & EV).
  exists out. split; [exact EO|]. split; [exact EI|]. intros i h lo1 lo2 hi1 hi2 Hi Hh E1 E2 E3 E4 HB.
  destruct (EV i Hi) as (mins & maxs & _ & V). rewrite V, nth_seq24, EK by exact Hh.
  set (r := mkrow mins maxs tmin tmax temp i).
  pose proof (Rmax_l lo1 lo2). pose proof (Rmax_r lo1 lo2). pose proof (Rmin_l hi1 hi2). pose proof (Rmin_r hi1 hi2).
  pose proof (Rmin_l lo1 lo2). pose proof (Rmin_r lo1 lo2). pose proof (Rmax_l hi1 hi2). pose proof (Rmax_r hi1 hi2).
  assert (A : exists lo, (if Z.of_nat h <? max_loc r then min_val_cur r else min_val_next r) = Fin lo /\ (lo = lo1 \/ lo = lo2)).
  { destruct (Z.of_nat h <? max_loc r); [exists lo1|exists lo2]; (split; [|auto]). exact E1. exact E2. }
  assert (B : exists hi, (if Z.of_nat h <? min_loc r then max_val_before r else max_val_cur r) = Fin hi /\ (hi = hi1 \/ hi = hi2)).
  { destruct (Z.of_nat h <? min_loc r); [exists hi1|exists hi2]; (split; [|auto]); [exact E3|exact E4]. }
  destruct A as (lo & A & CA), B as (hi & B & CB). rewrite (sine_plain r _ lo hi A B). eexists. split; [reflexivity|].
  assert (LE : (lo <= hi)%R) by (destruct CA, CB; subst; lra).
  pose proof (half_cos lo hi _ (cos_bounds (2 * PI / 24 * (IZR (Z.of_nat h) - IZR (max_loc r)))) LE). destruct CA, CB; subst; lra.
Qed.
Print Assumptions C34_between.

(** ** C35 *)
Theorem C35_attained e d d0 tmin tmax temp method mmt md delta mc st rise noon : temp <> [] ->
  temp_frame d d0 tmin tmax temp -> sine_method method -> sun_days st d0 rise noon -> length rise = length temp -> usable mmt md delta ->
  exists out, disaggregate_temperature e d method mmt false md mc (Some st) = Ok out /\
    forall i hi lo, (i < length temp)%nat -> nth i tmax NaN = Fin hi -> nth i tmin NaN = Fin lo ->
    exists mn mx, located (nth i rise 0%R) (nth i noon 0%R) (delta (month_of_day (d0 + Z.of_nat i))) mmt mn mx /\
      (forall h lo2, (h < 24)%nat -> Z.of_nat h = mx -> mn <= mx -> next_day tmin i = Fin lo2 -> nth h (values_on (d0 + Z.of_nat i) out) NaN = Fin hi) /\
      (forall h hi1, (h < 24)%nat -> Z.of_nat h = mx - 12 -> prev_day tmax i = Fin hi1 -> nth h (values_on (d0 + Z.of_nat i) out) NaN = Fin lo) /\
      (forall h lo2, (h < 24)%nat -> Z.of_nat h = mx + 12 -> mn <= mx + 12 -> next_day tmin i = Fin lo2 -> nth h (values_on (d0 + Z.of_nat i) out) NaN = Fin lo2).
Proof.
  intros NE F HM HS LR HU. destruct (sine_kind_minmax method HM) as [EK HM'].
  destruct (sine_hours e d d0 tmin tmax temp method mmt false md delta mc st rise noon NE F HM' HS LR HU) as (out & EO & EI & EV).
  exists out. split; [exact EO|]. intros i hi lo Hi E1 E2. destruct (EV i Hi) as (mins & maxs & HL & V).
  exists (nth i mins 0), (nth i maxs 0). split; [exact HL|]. set (r := mkrow mins maxs tmin tmax temp i) in *.
  assert (Emn : min_loc r = nth i mins 0) by reflexivity. assert (Emx : max_loc r = nth i maxs 0) by reflexivity. rewrite <- Emn, <- Emx.
  split; [|split].
  - intros h lo2 Hh Q HB E3. rewrite V, nth_seq24, EK by exact Hh. rewrite (sine_plain r _ lo2 hi).
    + rewrite ang_sub. replace (Z.of_nat h - max_loc r) with 0 by lia. rewrite cos_ang_0. f_equal. lra.
    + destruct (Z.ltb_spec (Z.of_nat h) (max_loc r)); [lia|exact E3].
    + destruct (Z.ltb_spec (Z.of_nat h) (min_loc r)); [lia|exact E1].
  - intros h hi1 Hh Q E3. rewrite V, nth_seq24, EK by exact Hh.
    assert (B : exists x, (if Z.of_nat h <? min_loc r then max_val_before r else max_val_cur r) = Fin x).
    { destruct (Z.of_nat h <? min_loc r); [exists hi1; exact E3|exists hi; exact E1]. }
    destruct B as (x & B). rewrite (sine_plain r _ lo x); [|destruct (Z.ltb_spec (Z.of_nat h) (max_loc r)); [exact E2|lia]|exact B].
    rewrite ang_sub. replace (Z.of_nat h - max_loc r) with (0 + 12 + 24 * -1) by lia. rewrite cos_ang_turn, cos_ang_half, cos_ang_0. f_equal. lra.
  - intros h lo2 Hh Q HB E3. rewrite V, nth_seq24, EK by exact Hh. rewrite (sine_plain r _ lo2 hi).
    + rewrite ang_sub. replace (Z.of_nat h - max_loc r) with (0 + 12) by lia. rewrite cos_ang_half, cos_ang_0. f_equal. lra.
    + destruct (Z.ltb_spec (Z.of_nat h) (max_loc r)); [lia|exact E3].
    + destruct (Z.ltb_spec (Z.of_nat h) (min_loc r)); [lia|exact E1].
Qed.
Print Assumptions C35_attained.
(** two days with 12 hours of sun *)
Definition two_days_sun : sun_table := map (fun t => (t, {| sunrise := Fin 6; sunnoon := Fin 12; sunset := Fin 18; daylength := Fin 12 |})) (daily_index 0 2).
Definition two_days : dframe xr := Build_dframe (daily_index 0 2) [("temp"%string, [Fin 281; Fin 270]); ("tmin"%string, [Fin 280; Fin 260]); ("tmax"%string, [Fin 282; Fin 280])].
Lemma two_days_sun_ok : sun_days two_days_sun 0 [6%R; 6%R] [12%R; 12%R].
Proof. unfold sun_days, two_days_sun. cbn. repeat split; try reflexivity. repeat constructor; exists 12%R; split; [reflexivity|lra|reflexivity|lra]. Qed.
Lemma two_days_ok : temp_frame two_days 0 [Fin 280; Fin 260] [Fin 282; Fin 280] [Fin 281; Fin 270].
Proof. repeat split. Qed.
Theorem C35_minimum_missed_refuted : exists out v, disaggregate_temperature modern two_days "sine_min_max" "fix" false None None (Some two_days_sun) = Ok out /\
  nth 22 (values_on 0 out) NaN = Fin v /\ nth 0 [Fin 280; Fin 260] NaN = Fin 280 /\ (v < 280)%R.
Proof.
  destruct (sine_hours modern two_days 0 [Fin 280; Fin 260] [Fin 282; Fin 280] [Fin 281; Fin 270] "sine_min_max" "fix" false None (fun _ => 0%R) None two_days_sun [6%R; 6%R] [12%R; 12%R])
    as (out & EO & _ & EV); [discriminate|exact two_days_ok|left; reflexivity|exact two_days_sun_ok|reflexivity|left; reflexivity|].
  destruct (EV O ltac:(cbn; lia)) as (mins & maxs & HL & V). cbn [nth] in HL.
  exists out. change (0 + Z.of_nat 0) with 0 in V. rewrite V, nth_seq24 by lia. cbn [String.eqb Ascii.eqb Bool.eqb].
  set (r := mkrow mins maxs _ _ _ O).
  assert (L : min_loc r = 7 /\ max_loc r = 14) by (cbn; inversion HL; split; congruence). destruct L as [L1 L2].
  rewrite (sine_plain r _ 260 282); [|rewrite L2; reflexivity|rewrite L1; reflexivity].
  eexists. split; [exact EO|]. split; [reflexivity|]. split; [reflexivity|]. rewrite L2. replace (2 * PI / 24 * (IZR (Z.of_nat 22) - 14))%R with (2 * (PI / 3))%R by (cbn; lra).
  rewrite cos_2PI3. lra.
Qed.
Print Assumptions C35_minimum_missed_refuted.

(** ** C36 *)
Theorem C36_mean_and_range e d d0 tmin tmax temp mmt modn md delta mc st rise noon : temp <> [] ->
  temp_frame d d0 tmin tmax temp -> sun_days st d0 rise noon -> length rise = length temp -> usable mmt md delta ->
  exists out, disaggregate_temperature e d "sine_mean" mmt modn md mc (Some st) = Ok out /\
    map fst out = hours_index d0 (length temp) /\
    forall i lo hi m, (i < length temp)%nat -> nth i tmin NaN = Fin lo -> nth i tmax NaN = Fin hi -> nth i temp NaN = Fin m ->
    exists vals, values_on (d0 + Z.of_nat i) out = map Fin vals /\ length vals = 24%nat /\ Rmean vals = m /\
      ((lo <= hi)%R -> is_min vals (m - (hi - lo) / 2) /\ is_max vals (m + (hi - lo) / 2)).
Proof.
  intros NE F HS LR HU.
  destruct (sine_hours e d d0 tmin tmax temp "sine_mean" mmt modn md delta mc st rise noon NE F ltac:(auto) HS LR HU) as (out & EO & EI & EV).
  exists out. split; [exact EO|]. split; [exact EI|]. intros i lo hi m Hi E1 E2 E3. destruct (EV i Hi) as (mins & maxs & _ & V).
  set (r := mkrow mins maxs tmin tmax temp i) in *. cbn [String.eqb Ascii.eqb Bool.eqb] in V.
  set (val := fun h => (m + (hi - lo) / 2 * cos (ang (Z.of_nat h - max_loc r)))%R).
  exists (map val (seq 0 24)). split; [|split; [reflexivity|split]].
  - rewrite V, map_map. apply map_ext. intro h. rewrite (sine_avg r _ lo hi m) by assumption. rewrite ang_sub. reflexivity.
  - unfold Rmean. rewrite map_length, seq_length.
    assert (G : forall l, Rsum (map val l) = (INR (length l) * m + (hi - lo) / 2 * Rsum (map (fun h => cos (ang (Z.of_nat h - max_loc r))) l))%R).
    { induction l as [|x l IH]; [unfold Rsum; cbn; lra|]. cbn [map length]. unfold Rsum in *. cbn [fold_right]. rewrite IH, S_INR. unfold val. lra. }
    rewrite G, cos_sum_24, seq_length. cbn [INR]. lra.
  - intro LE.
    assert (AT : forall z, exists h, (h < 24)%nat /\ cos (ang (Z.of_nat h - max_loc r)) = cos (ang (z - max_loc r))).
    { intro z. exists (Z.to_nat (z mod 24)). pose proof (Z.mod_pos_bound z 24 ltac:(lia)). split; [lia|].
      rewrite <- (cos_ang_turn (Z.of_nat (Z.to_nat (z mod 24)) - max_loc r) (z / 24)). do 2 f_equal. rewrite Z2Nat.id by lia. pose proof (Z.div_mod z 24 ltac:(lia)). lia. }
    split; split.
    + destruct (AT (max_loc r + 12)) as (h & Hh & Q). apply in_map_iff. exists h. split; [|apply in_seq; lia].
      unfold val. rewrite Q. replace (max_loc r + 12 - max_loc r) with (0 + 12) by lia. rewrite cos_ang_half, cos_ang_0. lra.
    + intros x Hx. apply in_map_iff in Hx as (h & <- & _). unfold val. pose proof (cos_bounds (ang (Z.of_nat h - max_loc r))). nra.
    + destruct (AT (max_loc r)) as (h & Hh & Q). apply in_map_iff. exists h. split; [|apply in_seq; lia].
      unfold val. rewrite Q. rewrite Z.sub_diag, cos_ang_0. lra.
    + intros x Hx. apply in_map_iff in Hx as (h & <- & _). unfold val. pose proof (cos_bounds (ang (Z.of_nat h - max_loc r))). nra.
Qed.
Print Assumptions C36_mean_and_range.

(** ** C37 *)
Theorem C37_min_max e d d0 tmin tmax temp mmt modn md st c f : temp <> [] -> temp_frame d d0 tmin tmax temp ->
  has_course c d0 (length temp) f ->
  exists out, disaggregate_temperature e d "mean_course_min_max" mmt modn md (Some c) st = Ok out /\
    map fst out = hours_index d0 (length temp) /\
    forall i lo hi, (i < length temp)%nat -> nth i tmin NaN = Fin lo -> nth i tmax NaN = Fin hi -> (lo <= hi)%R ->
      (let g := f (month_of_day (d0 + Z.of_nat i)) in
       (forall h, (h < 24)%nat -> (0 <= g h <= 1)%R) /\ (exists h, (h < 24)%nat /\ g h = 0%R) /\ (exists h, (h < 24)%nat /\ g h = 1%R)) ->
      exists vals, values_on (d0 + Z.of_nat i) out = map Fin vals /\ length vals = 24%nat /\ is_min vals lo /\ is_max vals hi.
Proof.
  intros NE F HC. rewrite (course_min_max_ok e d d0 tmin tmax temp mmt modn md st c f NE F HC).
  eexists. split; [reflexivity|]. split; [rewrite map_map; apply map_id|].
  intros i lo hi Hi E1 E2 LE. cbv zeta. set (g := f (month_of_day (d0 + Z.of_nat i))). intros (HB & (h0 & H0 & G0) & (h1 & H1 & G1)).
  exists (map (fun h => g h * (hi - lo) + lo)%R (seq 0 24)).
  rewrite (values_on_map_hours (fun t => (Fin (course_val f t) * (at_day d0 tmax NaN t - at_day d0 tmin NaN t) + at_day d0 tmin NaN t)%num)) by exact Hi.
  split; [|split; [reflexivity|split; split]].
  - rewrite map_map. apply map_ext_in. intros h Hh. apply in_seq in Hh. rewrite !at_day_stamp, course_val_stamp by lia. rewrite E1, E2. reflexivity.
  - apply in_map_iff. exists h0. rewrite G0. split; [lra|apply in_seq; lia].
  - intros x Hx. apply in_map_iff in Hx as (h & <- & Hh). apply in_seq in Hh. pose proof (HB h ltac:(lia)). nra.
  - apply in_map_iff. exists h1. rewrite G1. split; [lra|apply in_seq; lia].
  - intros x Hx. apply in_map_iff in Hx as (h & <- & Hh). apply in_seq in Hh. pose proof (HB h ltac:(lia)). nra.
Qed.
Print Assumptions C37_min_max.

(** ** C38 *)
Lemma Rsum_affine {A} (g : A -> R) a b l : Rsum (map (fun h => a + b * g h)%R l) = (INR (length l) * a + b * Rsum (map g l))%R.
Proof. induction l as [|x l IH]; [unfold Rsum; cbn; lra|]. cbn [map length]. unfold Rsum in *. cbn [fold_right]. rewrite IH, S_INR. lra. Qed.
Theorem C38_mean e d d0 tmin tmax temp mmt modn md st c f : temp <> [] -> temp_frame d d0 tmin tmax temp ->
  has_course c d0 (length temp) f ->
  exists out, disaggregate_temperature e d "mean_course_mean" mmt modn md (Some c) st = Ok out /\
    map fst out = hours_index d0 (length temp) /\
    forall i lo hi m, (i < length temp)%nat -> nth i tmin NaN = Fin lo -> nth i tmax NaN = Fin hi -> nth i temp NaN = Fin m ->
      exists vals, values_on (d0 + Z.of_nat i) out = map Fin vals /\ length vals = 24%nat /\ Rmean vals = m /\
        forall h k, (h < 24)%nat -> (k < 24)%nat ->
          (nth h vals 0 - nth k vals 0 = (hi - lo) * (f (month_of_day (d0 + Z.of_nat i)) h - f (month_of_day (d0 + Z.of_nat i)) k))%R.
Proof.
  intros NE F HC. rewrite (course_mean_ok e d d0 tmin tmax temp mmt modn md st c f NE F HC).
  eexists. split; [reflexivity|]. split; [rewrite map_map; apply map_id|].
  intros i lo hi m Hi E1 E2 E3. set (g := f (month_of_day (d0 + Z.of_nat i))). set (mu := Rmean (map g (seq 0 24))).
  exists (map (fun h => m + (hi - lo) * (g h - mu))%R (seq 0 24)).
  set (F2 := fun m h => (f m h - Rmean (map (f m) (seq 0 24)))%R).
  rewrite (values_on_map_hours (fun t => (at_day d0 temp NaN t + (at_day d0 tmax NaN t - at_day d0 tmin NaN t) * Fin (course_val F2 t))%num)) by exact Hi.
  split; [|split; [reflexivity|split]].
  - rewrite map_map. apply map_ext_in. intros h Hh. apply in_seq in Hh. rewrite !at_day_stamp, course_val_stamp by lia. rewrite E1, E2, E3. reflexivity.
  - unfold Rmean at 1. rewrite map_length, (Rsum_affine (fun h => g h - mu)%R), seq_length.
    assert (Z0 : Rsum (map (fun h => g h - mu)%R (seq 0 24)) = 0%R).
    { rewrite (map_ext _ (fun h => (- mu) + 1 * g h)%R) by (intro; ring). rewrite Rsum_affine, seq_length. unfold mu, Rmean. rewrite map_length, seq_length. cbn [INR]. field. }
    rewrite Z0. cbn [INR]. field.
  - intros h k Hh Hk. rewrite !nth_seq24 by assumption. ring.
Qed.
Print Assumptions C38_mean.

(** the courses computed from observed hourly data satisfy the hypotheses of C37 *)
Lemma course_column_full s m norm : (forall h, (h < 24)%nat -> exists t, In t (map fst s) /\ hour_of t = Z.of_nat h) ->
  numeric (map snd s) -> (forall h, (h < 24)%nat -> month_hour_values s m (Z.of_nat h) <> []) ->
  entry_of m (mean_course s norm) = Some (let c := hour_column (fun h => Rmean (month_hour_values s m (Z.of_nat h))) in if norm then normalise c else c).
Proof.
  intros HH NU HV.
  assert (HO : hours_of s = map Z.of_nat (seq 0 24)).
  { unfold hours_of. assert (G : forall l, (forall h, In h l -> exists t, In t (index s) /\ hour_of t = h) -> filter (fun h => existsb (fun t => hour_of t =? h) (index s)) l = l).
    { induction l as [|h l IH]; intro H; [reflexivity|]. cbn [filter].
      destruct (H h (or_introl eq_refl)) as (t & Ht & Q).
      assert (E : existsb (fun t => hour_of t =? h) (index s) = true) by (apply existsb_exists; exists t; split; [exact Ht|apply Z.eqb_eq, Q]).
      rewrite E. f_equal. apply IH. intros; apply H; right; assumption. }
    apply G. intros h Hh. apply in_map_iff in Hh as (k & <- & Hk). apply in_seq in Hk. apply HH. lia. }
  assert (HC : column s m = hour_column (fun h => Rmean (month_hour_values s m (Z.of_nat h)))).
  { unfold column, hour_column. rewrite HO, map_map. apply map_ext_in. intros h Hh. apply in_seq in Hh. f_equal. apply mhm_data; [exact NU|apply HV; lia]. }
  rewrite course_column.
  - rewrite HC. reflexivity.
  - assert (H0 : month_hour_values s m 0 <> []) by (apply (HV O); lia). destruct (mhv_occurs s m 0 H0) as [HM _]. exact HM.
Qed.
Definition col_lo (g : nat -> R) : R := match nanmin (map snd (hour_column g)) with Fin r => r | _ => 0%R end.
Definition col_hi (g : nat -> R) : R := match nanmax (map snd (hour_column g)) with Fin r => r | _ => 0%R end.
Lemma col_extremes g : nanmin (map snd (hour_column g)) = Fin (col_lo g) /\ nanmax (map snd (hour_column g)) = Fin (col_hi g) /\
  (forall h, (h < 24)%nat -> (col_lo g <= g h <= col_hi g)%R) /\ (exists h, (h < 24)%nat /\ g h = col_lo g) /\ (exists h, (h < 24)%nat /\ g h = col_hi g).
Proof.
  assert (E : map snd (hour_column g) = map Fin (map g (seq 0 24))) by (unfold hour_column; rewrite !map_map; reflexivity).
  unfold col_lo, col_hi. rewrite E. assert (SQ : exists l, seq 0 24 = l /\ l <> []) by (exists (seq 0 24); split; [reflexivity|discriminate]).
  assert (ND : map g (seq 0 24) <> []) by discriminate.
  destruct (nanmin_numeric (map Fin (map g (seq 0 24))) (numeric_Fin _)) as (a & Ea & I1 & I2); [rewrite fins_Fin; exact ND|].
  destruct (nanmax_numeric (map Fin (map g (seq 0 24))) (numeric_Fin _)) as (b & Eb & J1 & J2); [rewrite fins_Fin; exact ND|].
  rewrite fins_Fin in I1, I2, J1, J2. rewrite Ea, Eb. split; [reflexivity|]. split; [reflexivity|]. split; [|split].
  - intros h Hh. assert (In (g h) (map g (seq 0 24))) by (apply in_map, in_seq; lia). split; [apply I2|apply J2]; assumption.
  - apply in_map_iff in I1 as (h & Q & Hh). apply in_seq in Hh. exists h. split; [lia|exact Q].
  - apply in_map_iff in J1 as (h & Q & Hh). apply in_seq in Hh. exists h. split; [lia|exact Q].
Qed.
Lemma normalised_column g : (col_lo g < col_hi g)%R ->
  normalise (hour_column g) = hour_column (fun h => (g h - col_lo g) / (col_hi g - col_lo g))%R.
Proof.
  intro LT. unfold normalise. cbv zeta. destruct (col_extremes g) as (E1 & E2 & _). rewrite E1, E2.
  unfold hour_column at 1. rewrite map_map. apply map_ext. intro h. cbn [fst snd]. rewrite !xsub_Fin, xdiv_Fin by lra. reflexivity.
Qed.
Lemma normalised_unit g : (col_lo g < col_hi g)%R -> let n := (fun h => (g h - col_lo g) / (col_hi g - col_lo g))%R in
  (forall h, (h < 24)%nat -> (0 <= n h <= 1)%R) /\ (exists h, (h < 24)%nat /\ n h = 0%R) /\ (exists h, (h < 24)%nat /\ n h = 1%R).
Proof.
  intro LT. cbv zeta. destruct (col_extremes g) as (_ & _ & B & (h0 & H0 & G0) & (h1 & H1 & G1)).
  revert LT B G0 G1. generalize (col_lo g) (col_hi g). intros lo hi LT B G0 G1. split; [|split].
  - intros h Hh. specialize (B h Hh). split.
    + apply Rmult_le_pos; [lra|]. left. apply Rinv_0_lt_compat. lra.
    + apply Rmult_le_reg_r with (hi - lo)%R; [lra|]. unfold Rdiv. rewrite Rmult_assoc, Rinv_l by lra. lra.
  - exists h0. split; [exact H0|]. rewrite G0. field. lra.
  - exists h1. split; [exact H1|]. rewrite G1. field. lra.
Qed.
Lemma in_filter_ex (idx : list Z) h l : In h (filter (fun h => existsb (fun t => hour_of t =? h) idx) l) -> exists t, In t idx /\ hour_of t = h.
Proof. intro HO. apply filter_In in HO as [_ HO]. apply existsb_exists in HO as (t & Ht & Q). exists t. split; [exact Ht|]. apply Z.eqb_eq, Q. Qed.
Lemma hours_of_seen s h : In h (hours_of s) -> exists t, In t (map fst s) /\ hour_of t = h.
Proof. apply in_filter_ex. Qed.
Lemma hours_seen s m : (forall h, (h < 24)%nat -> month_hour_values s m (Z.of_nat h) <> []) ->
  forall h, (h < 24)%nat -> exists t, In t (map fst s) /\ hour_of t = Z.of_nat h.
Proof. intros HV h Hh. apply hours_of_seen. exact (proj2 (mhv_occurs s m (Z.of_nat h) (HV h Hh))). Qed.
Theorem C37_course_from_data s d0 n : numeric (map snd s) ->
  (forall i h, (i < n)%nat -> (h < 24)%nat -> month_hour_values s (month_of_day (d0 + Z.of_nat i)) (Z.of_nat h) <> []) ->
  (forall i, (i < n)%nat -> exists h k, (h < 24)%nat /\ (k < 24)%nat /\
     Rmean (month_hour_values s (month_of_day (d0 + Z.of_nat i)) (Z.of_nat h)) <> Rmean (month_hour_values s (month_of_day (d0 + Z.of_nat i)) (Z.of_nat k))) ->
  exists f, has_course (mean_course s true) d0 n f /\
    forall i, (i < n)%nat -> let g := f (month_of_day (d0 + Z.of_nat i)) in
      (forall h, (h < 24)%nat -> (0 <= g h <= 1)%R) /\ (exists h, (h < 24)%nat /\ g h = 0%R) /\ (exists h, (h < 24)%nat /\ g h = 1%R).
Proof.
  intros NU HV HD.
  exists (fun m h => ((fun k => Rmean (month_hour_values s m (Z.of_nat k))) h - col_lo (fun k => Rmean (month_hour_values s m (Z.of_nat k))))
                     / (col_hi (fun k => Rmean (month_hour_values s m (Z.of_nat k))) - col_lo (fun k => Rmean (month_hour_values s m (Z.of_nat k)))))%R.
  assert (LT : forall i, (i < n)%nat -> (col_lo (fun k => Rmean (month_hour_values s (month_of_day (d0 + Z.of_nat i)) (Z.of_nat k)))
                                   < col_hi (fun k => Rmean (month_hour_values s (month_of_day (d0 + Z.of_nat i)) (Z.of_nat k))))%R).
  { intros i Hi. destruct (HD i Hi) as (h & k & Hh & Hk & NEQ).
    destruct (col_extremes (fun k => Rmean (month_hour_values s (month_of_day (d0 + Z.of_nat i)) (Z.of_nat k)))) as (_ & _ & B & _ & _).
    pose proof (B h Hh) as B1. pose proof (B k Hk) as B2. cbv beta in B1, B2. revert B1 B2 NEQ. generalize (col_lo (fun k => Rmean (month_hour_values s (month_of_day (d0 + Z.of_nat i)) (Z.of_nat k)))) (col_hi (fun k => Rmean (month_hour_values s (month_of_day (d0 + Z.of_nat i)) (Z.of_nat k)))).
    intros lo hi B1 B2 NEQ. destruct (Rtotal_order lo hi) as [L|L]; [exact L|exfalso; apply NEQ; lra]. }
  split.
  - intros i Hi. specialize (LT i Hi). specialize (HV i). revert LT HV. generalize (month_of_day (d0 + Z.of_nat i)). intros m LT HV.
    rewrite (course_column_full s m true); [|apply (hours_seen s m); intros; apply HV; assumption|exact NU|intros; apply HV; assumption].
    f_equal. exact (normalised_column _ LT).
  - intros i Hi. exact (normalised_unit _ (LT i Hi)).
Qed.
Print Assumptions C37_course_from_data.
Example C37_met : has_course (map (fun m => (m, hour_column (fun h => INR h / 23)%R)) (map Z.of_nat (seq 1 12))) 0 2 (fun _ h => INR h / 23)%R.
Proof.
  intros i Hi. rewrite entry_lookup. rewrite (lookup_map_id (fun m => hour_column (fun h => INR h / 23)%R)); [reflexivity|].
  pose proof (month_range (0 + Z.of_nat i)). apply in_map_iff. exists (Z.to_nat (month_of_day (0 + Z.of_nat i))). split; [lia|apply in_seq; lia].
Qed.

(** ** C39 *)
Theorem C39_night e d d0 tmin tmax temp method mmt md delta mc st rise noon : temp <> [] ->
  temp_frame d d0 tmin tmax temp -> sine_method method -> sun_days st d0 rise noon -> length rise = length temp -> usable mmt md delta ->
  exists out, disaggregate_temperature e d method mmt true md mc (Some st) = Ok out /\
    map fst out = hours_index d0 (length temp) /\
    forall i, (i < length temp)%nat ->
    exists mn mx, located (nth i rise 0%R) (nth i noon 0%R) (delta (month_of_day (d0 + Z.of_nat i))) mmt mn mx /\
      (0 <= mn -> mn < mx -> mx <= 23 ->
       forall h lo hi, (h < 24)%nat -> min_for tmin i mx h = Fin lo -> max_for tmax i mn h = Fin hi ->
       exists v, nth h (values_on (d0 + Z.of_nat i) out) NaN = Fin v /\
         ((lo <= hi)%R -> (lo <= v <= hi)%R) /\
         (Z.of_nat h = mn -> v = lo /\ nth i tmin NaN = Fin lo) /\
         (Z.of_nat h = mx -> v = hi /\ nth i tmax NaN = Fin hi)).
Proof.
  intros NE F HM HS LR HU. destruct (sine_kind_minmax method HM) as [EK HM'].
  destruct (sine_hours e d d0 tmin tmax temp method mmt true md delta mc st rise noon NE F HM' HS LR HU) as (out & EO & EI & EV).
  exists out. split; [exact EO|]. split; [exact EI|]. intros i Hi. destruct (EV i Hi) as (mins & maxs & HL & V).
  exists (nth i mins 0), (nth i maxs 0). split; [exact HL|]. set (r := mkrow mins maxs tmin tmax temp i) in *.
  assert (Emn : min_loc r = nth i mins 0) by reflexivity. assert (Emx : max_loc r = nth i maxs 0) by reflexivity. rewrite <- Emn, <- Emx.
  intros H1 H2 H3 h lo hi Hh E1 E2. rewrite V, nth_seq24, EK by exact Hh.
  rewrite (sine_night r (Z.of_nat h) lo hi); [|lia|exact E1|exact E2].
  eexists. split; [reflexivity|]. split; [|split].
  - intro LE. apply half_cos; [apply cos_bounds|exact LE].
  - intro Q. split.
    + unfold night_angle. destruct (Z.leb_spec (max_loc r) (Z.of_nat h)); [lia|]. destruct (Z.ltb_spec (min_loc r) (Z.of_nat h)); [lia|].
      assert (D : (IZR (max_loc r) - IZR (min_loc r) <= 23)%R) by (rewrite <- minus_IZR; apply IZR_le; lia).
      replace (PI / (24 - (IZR (max_loc r) - IZR (min_loc r))) * (24 - IZR (max_loc r) + IZR (Z.of_nat h)))%R with PI
        by (rewrite Q; revert D; clear; generalize (IZR (max_loc r)) (IZR (min_loc r)); intros x y H; field; lra).
      rewrite cos_PI. lra.
    + unfold min_for in E1. change (nth i maxs 0) with (max_loc r) in E1. destruct (Z.ltb_spec (Z.of_nat h) (max_loc r)); [exact E1|lia].
  - intro Q. split.
    + unfold night_angle. destruct (Z.leb_spec (max_loc r) (Z.of_nat h)); [|lia]. rewrite Q. replace (IZR (max_loc r) - IZR (max_loc r))%R with 0%R by ring. rewrite Rmult_0_r, cos_0. lra.
    + unfold max_for in E2. change (nth i mins 0) with (min_loc r) in E2. destruct (Z.ltb_spec (Z.of_nat h) (min_loc r)); [lia|exact E2].
Qed.
Print Assumptions C39_night.

(** ** C72: the jump after the minimum *)
Theorem C72_jump e d d0 tmin tmax temp method mmt md delta mc st rise noon : temp <> [] ->
  temp_frame d d0 tmin tmax temp -> sine_method method -> sun_days st d0 rise noon -> length rise = length temp -> usable mmt md delta ->
  exists out, disaggregate_temperature e d method mmt true md mc (Some st) = Ok out /\
    forall i, (i < length temp)%nat ->
    exists mn mx, located (nth i rise 0%R) (nth i noon 0%R) (delta (month_of_day (d0 + Z.of_nat i))) mmt mn mx /\
      (0 <= mn -> mn < mx -> mx <= 23 -> forall h lo hi, (h < 24)%nat -> mn < Z.of_nat h < mx ->
       nth i tmin NaN = Fin lo -> nth i tmax NaN = Fin hi -> (lo < hi)%R ->
       exists v, nth h (values_on (d0 + Z.of_nat i) out) NaN = Fin v /\ (v > lo + (hi - lo) * (1 - sqrt 2 / 2) / 2)%R).
Proof.
  intros NE F HM HS LR HU. destruct (sine_kind_minmax method HM) as [EK HM'].
  destruct (sine_hours e d d0 tmin tmax temp method mmt true md delta mc st rise noon NE F HM' HS LR HU) as (out & EO & EI & EV).
  exists out. split; [exact EO|]. intros i Hi. destruct (EV i Hi) as (mins & maxs & HL & V).
  exists (nth i mins 0), (nth i maxs 0). split; [exact HL|]. set (r := mkrow mins maxs tmin tmax temp i) in *.
  assert (Emn : min_loc r = nth i mins 0) by reflexivity. assert (Emx : max_loc r = nth i maxs 0) by reflexivity. rewrite <- Emn, <- Emx.
  intros H1 H2 H3 h lo hi Hh HB E1 E2 LT. rewrite V, nth_seq24, EK by exact Hh.
  rewrite (sine_night r (Z.of_nat h) lo hi); [|lia|destruct (Z.ltb_spec (Z.of_nat h) (max_loc r)); [exact E1|lia]|destruct (Z.ltb_spec (Z.of_nat h) (min_loc r)); [lia|exact E2]].
  eexists. split; [reflexivity|].
  assert (C : (- (sqrt 2 / 2) < cos (night_angle (min_loc r) (max_loc r) (Z.of_nat h)))%R).
  { unfold night_angle. destruct (Z.leb_spec (max_loc r) (Z.of_nat h)); [lia|]. destruct (Z.ltb_spec (min_loc r) (Z.of_nat h)); [|lia].
    assert (D1 : (0 < IZR (Z.of_nat h) - IZR (min_loc r))%R) by (rewrite <- minus_IZR; apply IZR_lt; lia).
    assert (D2 : (IZR (Z.of_nat h) - IZR (min_loc r) < IZR (max_loc r) - IZR (min_loc r))%R) by (rewrite <- !minus_IZR; apply IZR_lt; lia).
    set (x := (IZR (Z.of_nat h) - IZR (min_loc r))%R) in *. set (y := (IZR (max_loc r) - IZR (min_loc r))%R) in *.
    replace (0.75 * PI / y * x)%R with (0.75 * PI * (x / y))%R by (field; lra).
    assert (Q : (0 < x / y < 1)%R).
    { split; [apply Rdiv_lt_0_compat; lra|]. apply Rmult_lt_reg_r with y; [lra|]. unfold Rdiv. rewrite Rmult_assoc, Rinv_l by lra. lra. }
    pose proof PI_RGT_0 as HP.
    assert (E5 : cos (5 * (PI / 4)) = (- (sqrt 2 / 2))%R).
    { rewrite cos_5PI4. assert (S2 : (sqrt 2 * sqrt 2 = 2)%R) by (apply sqrt_sqrt; lra). assert (SP : (0 < sqrt 2)%R) by (apply sqrt_lt_R0; lra).
      revert S2 SP. clear. generalize (sqrt 2). intros s S2 SP. replace (-1)%R with (- (s * s) / 2)%R by lra. field. lra. }
    rewrite <- E5. apply cos_increasing_1; nra. }
  nra.
Qed.
Print Assumptions C72_jump.
Example C39_met : exists out, disaggregate_temperature modern two_days "sine_min_max" "fix" true None None (Some two_days_sun) = Ok out.
Proof.
  destruct (C39_night modern two_days 0 [Fin 280; Fin 260] [Fin 282; Fin 280] [Fin 281; Fin 270] "sine_min_max" "fix" None (fun _ => 0%R) None two_days_sun [6%R; 6%R] [12%R; 12%R]) as (out & E & _);
    [discriminate|exact two_days_ok|left; reflexivity|exact two_days_sun_ok|reflexivity|left; reflexivity|].
  exists out; exact E.
Qed.

(** ** C40 *)
Theorem C40_polar_raises e d method mmt modn md mc (st : sun_table) t r x :
  (method = "sine_min_max" \/ method = "sine_mean" \/ method = "sine")%string ->
  In (t, r) st -> daylength r = Fin x -> (x < 3)%R ->
  exists err, disaggregate_temperature e d method mmt modn md mc (Some st) = Err err.
Proof.
  intros HM HI E HX. unfold disaggregate_temperature.
  replace (String.eqb method "sine_min_max" || String.eqb method "sine_mean" || String.eqb method "sine") with true
    by (destruct HM as [-> |[-> | ->]]; reflexivity).
  cbn [negb orb]. destruct (hourly_index e (f_index d)) as [hours|]; cbn [bind]; [|eauto].
  destruct (locations (f_index d) mmt md (Some st)) as [locs|]; cbn [bind]; [|eauto].
  destruct (mapM to_int (fst locs)) as [mins|]; cbn [bind]; [|eauto].
  destruct (mapM to_int (snd locs)) as [maxs|]; cbn [bind]; [|eauto].
  destruct (fcol "tmin" d); cbn [bind]; [|eauto]. destruct (fcol "tmax" d); cbn [bind]; [|eauto]. destruct (fcol "temp" d); cbn [bind]; [|eauto].
  destruct (has_dup (f_index d) || negb (is_increasing (f_index d))); [eauto|].
  destruct (polar_branch_raises e st hours t r x HI E HX) as (err & ->). cbn [bind]. eauto.
Qed.
Print Assumptions C40_polar_raises.
(** whenever a result is returned, no day was shorter than three hours *)
Theorem C40_only_long_days e d method mmt modn md mc (st : sun_table) out :
  (method = "sine_min_max" \/ method = "sine_mean" \/ method = "sine")%string ->
  disaggregate_temperature e d method mmt modn md mc (Some st) = Ok out ->
  Forall (fun p => forall x, daylength (snd p) = Fin x -> (3 <= x)%R) st.
Proof.
  intros HM E. apply Forall_forall. intros [t r] HI x EX. cbn [snd] in EX. destruct (Rle_dec 3 x) as [L|L]; [exact L|].
  destruct (C40_polar_raises e d method mmt modn md mc st t r x HM HI EX ltac:(lra)) as (err & Q). rewrite E in Q. discriminate.
Qed.
Print Assumptions C40_only_long_days.
(** a polar-night day that the other ingredients would not reject: ValueError on every pandas *)
Theorem C40_example_value_error e :
  disaggregate_temperature e two_days "sine_min_max" "fix" false None None
    (Some [(0, {| sunrise := Fin 11; sunnoon := Fin 12; sunset := Fin 13; daylength := Fin 2 |});
           (us_day, {| sunrise := Fin 10; sunnoon := Fin 12; sunset := Fin 14; daylength := Fin 4 |})]) = Err ValueError.
Proof.
  assert (HF : mapM to_int (map (fun k => Fin (IZR k)) [7; 7]) = Ok [7; 7]) by apply mapM_to_int.
  assert (HG : mapM to_int (map (fun k => Fin (IZR k)) [14; 14]) = Ok [14; 14]) by apply mapM_to_int.
  unfold disaggregate_temperature. cbn [String.eqb Ascii.eqb Bool.eqb orb negb]. change (f_index two_days) with (daily_index 0 2).
  rewrite (hourly_index_daily e false 0 1 : hourly_index e (daily_index 0 2) = _). cbn [bind].
  unfold locations. cbn [String.eqb Ascii.eqb Bool.eqb bind fst snd].
  change (map (fun _ => n_ofZ 7) (daily_index 0 2)) with (map (fun k => Fin (IZR k)) [7; 7]).
  change (map (fun _ => n_ofZ 14) (daily_index 0 2)) with (map (fun k => Fin (IZR k)) [14; 14]). rewrite HF, HG. cbn [bind].
  cbn [fcol two_days f_cols assoc String.eqb Ascii.eqb Bool.eqb bind]. rewrite daily_has_dup. 
  unfold daily_index at 1. rewrite grid_increasing by (unfold us_day; lia). cbn [orb negb].
  unfold polar_branch. cbn [map fst snd daylength n_ltb Num_xr n_ofZ xltb].
  destruct (Rltb_spec 2 3); [|lra]. destruct (Rltb_spec 4 3); [lra|]. cbn [filter snd fst map].
  rewrite (hourly_index_daily e false 0 0 : hourly_index e [0] = _). reflexivity.
Qed.
Print Assumptions C40_example_value_error.

(** ** C71 *)
Theorem C71_default_sun_times e d method mmt modn md mc :
  (method = "sine_min_max" \/ method = "sine_mean" \/ method = "sine")%string ->
  exists err, disaggregate_temperature e d method mmt modn md mc None = Err err.
Proof.
  intros HM. unfold disaggregate_temperature.
  replace (String.eqb method "sine_min_max" || String.eqb method "sine_mean" || String.eqb method "sine") with true
    by (destruct HM as [-> |[-> | ->]]; reflexivity).
  cbn [negb orb]. destruct (hourly_index e (f_index d)) as [hours|]; cbn [bind]; [|eauto].
  destruct (locations (f_index d) mmt md None) as [locs|]; cbn [bind]; [|eauto].
  destruct (mapM to_int (fst locs)) as [mins|]; cbn [bind]; [|eauto].
  destruct (mapM to_int (snd locs)) as [maxs|]; cbn [bind]; [|eauto].
  destruct (fcol "tmin" d); cbn [bind]; [|eauto]. destruct (fcol "tmax" d); cbn [bind]; [|eauto]. destruct (fcol "temp" d); cbn [bind]; [|eauto].
  destruct (has_dup (f_index d) || negb (is_increasing (f_index d))); eauto.
Qed.
Print Assumptions C71_default_sun_times.
(** the call with all defaults on a valid frame: AttributeError *)
Theorem C71_all_defaults e d d0 tmin tmax temp : temp <> [] -> temp_frame d d0 tmin tmax temp ->
  disaggregate_temperature e d "sine_min_max" "fix" false None None None = Err AttributeError.
Proof.
  intros NE (FI & L1 & L2 & C1 & C2 & C3). unfold disaggregate_temperature. cbn [String.eqb Ascii.eqb Bool.eqb orb negb]. rewrite FI.
  assert (HI : hourly_index e (daily_index d0 (length temp)) = Ok (hours_index d0 (length temp))).
  { destruct temp; [contradiction|]. apply hourly_index_daily. }
  rewrite HI. cbn [bind]. unfold locations. cbn [String.eqb Ascii.eqb Bool.eqb bind fst snd].
  assert (C : forall z, mapM to_int (map (fun _ : Z => (n_ofZ z : xr)) (daily_index d0 (length temp))) = Ok (map (fun _ => z) (daily_index d0 (length temp)))).
  { intro z. rewrite <- (mapM_to_int (map (fun _ => z) (daily_index d0 (length temp)))). rewrite map_map. reflexivity. }
  rewrite !C. cbn [bind]. unfold fcol. rewrite C1, C2, C3. cbn [bind]. rewrite daily_has_dup. unfold daily_index at 1. rewrite grid_increasing by (unfold us_day; lia). reflexivity.
Qed.
Print Assumptions C71_all_defaults.
(** the mean temperature is required even where it is not used *)
Theorem C71_needs_temp e d method mmt modn md mc st out : sine_method method ->
  disaggregate_temperature e d method mmt modn md mc st = Ok out -> exists v, assoc "temp" (f_cols d) = Some v.
Proof.
  intros HM E. destruct (assoc "temp" (f_cols d)) as [v|] eqn:EA; [eauto|exfalso].
  unfold disaggregate_temperature in E.
  replace (String.eqb method "sine_min_max" || String.eqb method "sine_mean" || String.eqb method "sine") with true in E
    by (destruct HM as [-> | ->]; reflexivity).
  cbn [negb orb] in E. destruct (hourly_index e (f_index d)) as [hours|]; cbn [bind] in E; [|discriminate].
  destruct (locations (f_index d) mmt md st) as [locs|]; cbn [bind] in E; [|discriminate].
  destruct (mapM to_int (fst locs)) as [mins|]; cbn [bind] in E; [|discriminate].
  destruct (mapM to_int (snd locs)) as [maxs|]; cbn [bind] in E; [|discriminate].
  destruct (fcol "tmin" d); cbn [bind] in E; [|discriminate]. destruct (fcol "tmax" d); cbn [bind] in E; [|discriminate].
  unfold fcol in E. rewrite EA in E. discriminate.
Qed.
Print Assumptions C71_needs_temp.
Theorem C71_invalid_method e d method mmt modn md mc st :
  ~ In method ["sine_min_max"; "sine_mean"; "sine"; "mean_course_min_max"; "mean_course_mean"]%string ->
  disaggregate_temperature e d method mmt modn md mc st = Err ValueError.
Proof.
  intro H. unfold disaggregate_temperature.
  assert (A : forall m, In m ["sine_min_max"; "sine_mean"; "sine"; "mean_course_min_max"; "mean_course_mean"]%string -> String.eqb method m = false).
  { intros m Hm. apply String.eqb_neq. intros ->. contradiction. }
  rewrite !A by (cbn; auto 10). reflexivity.
Qed.
Print Assumptions C71_invalid_method.

(** ** C73 *)
Theorem C73_monthly_shift (f : Z -> xr) d0 n lon lat tz hmax m :
  (forall t, match f t with Fin _ | NaN => True | _ => False end) ->
  (forall i, (i < n)%nat -> match hmax i with
     | Some h => first_max_hour (day_values f (d0 + Z.of_nat i)) h
     | None => forall h, (h < 24)%nat -> day_values f (d0 + Z.of_nat i) h = NaN end) ->
  entry_of m (get_shift_by_data (map (fun t => (t, f t)) (hours_index d0 n)) (Fin lon) (Fin lat) (Fin tz))
  = let diffs := flat_map (fun i => if month_of_day (d0 + Z.of_nat i) =? m
                     then match hmax i with Some h => [(INR h - noon_R (doy_of_day (d0 + Z.of_nat i)) lon tz)%R] | None => [] end
                     else []) (seq 0 n) in
    if existsb (fun i => month_of_day (d0 + Z.of_nat i) =? m) (seq 0 n)
    then Some (match diffs with [] => NaN | l => Fin (Rmean l) end) else None.
Proof.
  intros H1 H2. cbv zeta. rewrite (shift_entry f d0 n lon lat tz hmax m H1 H2). unfold month_deltas.
  destruct (flat_map _ (seq 0 n)); reflexivity.
Qed.
Print Assumptions C73_monthly_shift.
Example C73_met : first_max_hour (day_values (fun t => if hour_of t =? 14 then Fin 1 else Fin 0) 0) 14.
Proof.
  split; [lia|]. exists 1%R. split; [reflexivity|]. split.
  - intros k w Hk E. unfold day_values in E. destruct (hour_of _ =? 14); injection E as <-; lra.
  - intros k w Hk E. unfold day_values in E. pose proof (stamp_hour 0 k ltac:(lia)) as SH. unfold stamp in SH. rewrite SH in E.
    destruct (Z.eqb_spec (Z.of_nat k) 14); [lia|]. injection E as <-. lra.
Qed.
