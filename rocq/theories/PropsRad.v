(** Properties C41-C45, C74, C75: radiation. *)
From Coq Require Import String ZArith List Bool Lia Reals Lra Sorted.
From Verif Require Import Py Num Cal Series UtilModel UtilModel2 Trans Frame TempModel RadModel SpecBase SpecUtil SpecTemp SpecRad TimeProofs IndexProofs
  DaysProofs SunProofs CourseProofs TempProofs TempCourse RadProofs RadBC RadPot RadStats.
Import ListNotations.
Open Scope string_scope.
Open Scope Z_scope.
Open Scope list_scope.

Lemma scaled_shaped p g : (forall x, In x p -> (0 <= x)%R) -> (0 < Rmean p)%R -> (0 <= g)%R -> shaped p g (scaled p g).
Proof.
  intros HP HM HG. destruct (scaled_mean p g HP HM HG) as [A B]. split; [apply map_length|]. split; [exact A|]. split; [exact B|]. split.
  - intro H. apply scaled_exact; [lra|]. intros x Hx. destruct (H x Hx) as [->|K]; [left; unfold Rdiv; ring|right; exact K].
  - intros h Hh. cbv zeta. unfold scaled. rewrite (nth_indep _ 0%R ((fun x => cut_R (x / Rmean p * g)) 0%R)) by (rewrite map_length; exact Hh).
    rewrite (map_nth (fun x => cut_R (x / Rmean p * g))). reflexivity.
Qed.

(** ** C41 *)
Theorem C41_potential_shape e d d0 n gl st pot ps1 ps2 mc i p g :
  day_frame d d0 n -> has_column d "glob" gl -> map fst pot = hours_index d0 n -> (i < n)%nat ->
  values_on (d0 + Z.of_nat i) pot = map Fin p -> (forall x, In x p -> (0 <= x)%R) -> (0 < Rmean p)%R ->
  nth_error gl i = Some (Fin g) -> (0 <= g)%R ->
  exists out q, disaggregate_radiation e d st (Some pot) "pot_rad" ps1 ps2 mc = Ok out /\ map fst out = hours_index d0 n /\
    values_on (d0 + Z.of_nat i) out = map Fin q /\ shaped p g q.
Proof.
  intros F C EP Hi EV HP HM EG HG. destruct (column_daily d d0 n "glob" gl F C) as [_ L].
  eexists; exists (scaled p g). split; [apply (rad_pot e d d0 n gl st pot ps1 ps2 mc F C)|]. split; [rewrite scale_index; exact EP|]. split.
  - rewrite (scale_day pot d0 n gl i EP L Hi), EV. rewrite (nth_error_nth gl i NaN EG). apply scaled_day; [apply Rmean_pos_nonempty; lra|lra].
  - apply scaled_shaped; assumption.
Qed.
Print Assumptions C41_potential_shape.
Theorem C41_mean_course e d d0 n gl st pot ps1 ps2 c f i g :
  day_frame d d0 n -> has_column d "glob" gl -> has_course c d0 n f -> (i < n)%nat ->
  let p := map (f (month_of_day (d0 + Z.of_nat i))) (seq 0 24) in
  (forall x, In x p -> (0 <= x)%R) -> (0 < Rmean p)%R ->
  nth_error gl i = Some (Fin g) -> (0 <= g)%R ->
  exists out q, disaggregate_radiation e d st pot "mean_course" ps1 ps2 (Some c) = Ok out /\ map fst out = hours_index d0 n /\
    values_on (d0 + Z.of_nat i) out = map Fin q /\ shaped p g q.
Proof.
  intros F C HC Hi p HP HM EG HG. destruct (column_daily d d0 n "glob" gl F C) as [_ L].
  pose proof (rad_course e d d0 n gl st pot ps1 ps2 c f F C HC) as R. cbv zeta in R.
  set (pot' := map (fun t => (t, Fin (course_val f t))) (hours_index d0 n)) in *.
  assert (EP : map fst pot' = hours_index d0 n) by (unfold pot'; rewrite map_map; apply map_id).
  assert (EV : values_on (d0 + Z.of_nat i) pot' = map Fin p).
  { unfold pot'. rewrite (values_on_map_hours (fun t => Fin (course_val f t)) d0 n i Hi). unfold p. rewrite map_map. apply map_ext_in. intros h Hh. apply in_seq in Hh.
    f_equal. apply course_val_stamp. lia. }
  eexists; exists (scaled p g). split; [exact R|]. split; [rewrite scale_index; exact EP|]. split.
  - rewrite (scale_day pot' d0 n gl i EP L Hi), EV. rewrite (nth_error_nth gl i NaN EG). apply scaled_day; [apply Rmean_pos_nonempty; lra|lra].
  - apply scaled_shaped; assumption.
Qed.
Print Assumptions C41_mean_course.
(** a negative daily value is silently treated as zero; a missing one gives NaN for the whole day *)
Theorem C41_negative_is_zero e d d0 n gl st pot ps1 ps2 mc i p g :
  day_frame d d0 n -> has_column d "glob" gl -> map fst pot = hours_index d0 n -> (i < n)%nat ->
  values_on (d0 + Z.of_nat i) pot = map Fin p -> (forall x, In x p -> (0 <= x)%R) -> (0 < Rmean p)%R ->
  nth_error gl i = Some (Fin g) -> (g <= 0)%R ->
  exists out, disaggregate_radiation e d st (Some pot) "pot_rad" ps1 ps2 mc = Ok out /\
    values_on (d0 + Z.of_nat i) out = map (fun _ => Fin 0) p.
Proof.
  intros F C EP Hi EV HP HM EG HG. destruct (column_daily d d0 n "glob" gl F C) as [_ L].
  eexists. split; [apply (rad_pot e d d0 n gl st pot ps1 ps2 mc F C)|].
  rewrite (scale_day pot d0 n gl i EP L Hi), EV. rewrite (nth_error_nth gl i NaN EG). rewrite scaled_day; [|apply Rmean_pos_nonempty; lra|lra].
  rewrite scaled_nonpos by assumption. apply map_map.
Qed.
Print Assumptions C41_negative_is_zero.
Lemma cut_NaN : cut NaN = NaN.
Proof. unfold cut. rewrite lit_xr by lia. reflexivity. Qed.
Theorem C41_missing_is_missing e d d0 n gl st pot ps1 ps2 mc i :
  day_frame d d0 n -> has_column d "glob" gl -> map fst pot = hours_index d0 n -> (i < n)%nat -> nth_error gl i = Some NaN ->
  exists out, disaggregate_radiation e d st (Some pot) "pot_rad" ps1 ps2 mc = Ok out /\
    values_on (d0 + Z.of_nat i) out = map (fun _ => NaN) (values_on (d0 + Z.of_nat i) pot).
Proof.
  intros F C EP Hi EG. destruct (column_daily d d0 n "glob" gl F C) as [_ L].
  eexists. split; [apply (rad_pot e d d0 n gl st pot ps1 ps2 mc F C)|].
  rewrite (scale_day pot d0 n gl i EP L Hi). rewrite (nth_error_nth gl i NaN EG). apply map_ext. intro x.
  replace (x / nanmean (values_on (d0 + Z.of_nat i) pot) * NaN)%num with NaN; [apply cut_NaN|].
  destruct (x / nanmean (values_on (d0 + Z.of_nat i) pot))%num; reflexivity.
Qed.
Print Assumptions C41_missing_is_missing.

(** a concrete day: a frame of two days, potential radiation 8 in one hour of each day *)
Definition ex_frame : dframe xr := {| f_index := daily_index 100 2; f_cols := [("glob", [Fin 3; Fin (-1)])] |}.
Definition ex_pot : series xr := map (fun t => (t, Fin (if hour_of t =? 12 then 24 else 0))) (hours_index 100 2).
Example C41_met : day_frame ex_frame 100 2 /\ has_column ex_frame "glob" [Fin 3; Fin (-1)] /\ map fst ex_pot = hours_index 100 2 /\
  values_on (100 + Z.of_nat 0) ex_pot = map Fin (map (fun h => if Nat.eqb h 12 then 24 else 0)%R (seq 0 24)) /\
  Rmean (map (fun h => if Nat.eqb h 12 then 24 else 0)%R (seq 0 24)) = 1%R.
Proof.
  split; [split; [discriminate|reflexivity]|]. split; [split; reflexivity|]. split; [unfold ex_pot; rewrite map_map; apply map_id|]. split.
  - unfold ex_pot. rewrite (values_on_map_hours (fun t => Fin (if hour_of t =? 12 then 24 else 0)%R) 100 2 0 ltac:(lia)).
    rewrite map_map. apply map_ext_in. intros h Hh. apply in_seq in Hh. rewrite stamp_hour by lia. change 12 with (Z.of_nat 12).
    destruct (Nat.eqb_spec h 12), (Z.eqb_spec (Z.of_nat h) (Z.of_nat 12)); try reflexivity; lia.
  - unfold Rmean, Rsum. cbn [seq map Nat.eqb length fold_right]. cbn [INR]. lra.
Qed.

(** ** C42 *)
Theorem C42_polar_night e d d0 n gl st pot ps1 ps2 mc i p :
  day_frame d d0 n -> has_column d "glob" gl -> map fst pot = hours_index d0 n -> (i < n)%nat ->
  values_on (d0 + Z.of_nat i) pot = map Fin p -> (forall x, In x p -> (0 <= x)%R) -> Rmean p = 0%R ->
  exists out, disaggregate_radiation e d st (Some pot) "pot_rad" ps1 ps2 mc = Ok out /\
    values_on (d0 + Z.of_nat i) out = map (fun _ => NaN) p.
Proof.
  intros F C EP Hi EV HP HM. destruct (column_daily d d0 n "glob" gl F C) as [_ L].
  eexists. split; [apply (rad_pot e d d0 n gl st pot ps1 ps2 mc F C)|].
  rewrite (scale_day pot d0 n gl i EP L Hi), EV, map_map. apply map_ext_in. intros x Hx.
  assert (NE : p <> []) by (intros ->; destruct Hx).
  assert (LP : (0 < INR (length p))%R) by (apply lt_0_INR; destruct p; [contradiction|cbn; lia]).
  assert (S0 : Rsum p = 0%R) by (unfold Rmean in HM; apply Rmult_eq_reg_r with (/ INR (length p))%R; [lra|apply Rinv_neq_0_compat; lra]).
  assert (X0 : x = 0%R).
  { clear -HP S0 Hx. revert Hx S0. induction p as [|y p IH]; intros Hx S0; [destruct Hx|]. unfold Rsum in *. cbn [fold_right] in S0.
    assert (K : (0 <= fold_right Rplus 0 p)%R).
    { assert (HP' : forall z, In z p -> (0 <= z)%R) by (intros z Hz; apply HP; right; exact Hz). clear -HP'. induction p as [|z p IH]; cbn; [lra|].
      pose proof (HP' z (or_introl eq_refl)). specialize (IH (fun w Hw => HP' w (or_intror Hw))). lra. }
    pose proof (HP y (or_introl eq_refl)). destruct Hx as [->|Hx]; [lra|]. apply IH; [intros z Hz; apply HP; right; exact Hz|exact Hx|lra]. }
  subst x. rewrite nanmean_numeric by (apply numeric_Fin || (rewrite fins_Fin; exact NE)). rewrite fins_Fin, HM.
  assert (DZ : (Fin 0 / Fin 0)%num = NaN) by (cbn; destruct (Reqb_spec 0 0); [reflexivity|contradiction]).
  rewrite DZ. apply cut_NaN.
Qed.
Print Assumptions C42_polar_night.
(** the same through potential_radiation: a day on which the sun never rises *)
Theorem C42_sun_below_horizon e d d0 n gl st ps1 ps2 mc i lon lat tz :
  day_frame d d0 n -> has_column d "glob" gl -> (i < n)%nat ->
  (forall h, (h < 24)%nat -> (sun_height (doy_of_day (d0 + Z.of_nat i)) (Z.of_nat h) 0 lon lat tz <= 0)%R) ->
  exists out, disaggregate_radiation e d st (Some (potential_radiation (hours_index d0 n) (Fin lon) (Fin lat) (Fin tz) (Fin 0) (Fin 0) (Fin 0))) "pot_rad" ps1 ps2 mc = Ok out /\
    values_on (d0 + Z.of_nat i) out = repeat NaN 24.
Proof.
  intros F C Hi HN.
  set (pot := potential_radiation (hours_index d0 n) (Fin lon) (Fin lat) (Fin tz) (Fin 0) (Fin 0) (Fin 0)).
  set (P := fun t => potential_radiation1 (doy_of_day (date_of t)) (hour_of t) (minute_of t) (Fin lon) (Fin lat) (Fin tz) (Fin 0) (Fin 0) (Fin 0)).
  assert (EQ : pot = map (fun t => (t, (fst (P t) + snd (P t))%num)) (hours_index d0 n)).
  { unfold pot, potential_radiation, potential_split. rewrite map_map. reflexivity. }
  assert (EP : map fst pot = hours_index d0 n) by (rewrite EQ, map_map; apply map_id).
  assert (EV : values_on (d0 + Z.of_nat i) pot = map Fin (map (fun _ => 0%R) (seq 0 24))).
  { rewrite EQ, (values_on_map_hours (fun t => (fst (P t) + snd (P t))%num) d0 n i Hi), map_map. apply map_ext_in. intros h Hh. apply in_seq in Hh.
    unfold P. rewrite stamp_date, stamp_hour, stamp_minute by lia. specialize (HN h ltac:(lia)).
    rewrite pot_flat by lra. unfold day_height. rewrite (Rmax_left 0 (sun_height _ _ _ _ _ _)) by exact HN. cbn [fst snd]. rewrite xadd_Fin. f_equal.
    rewrite !Rmult_0_r, (Rmax_left 0 0) by lra. ring. }
  destruct (C42_polar_night e d d0 n gl st pot ps1 ps2 mc i (map (fun _ => 0%R) (seq 0 24)) F C EP Hi EV) as (out & E1 & E2).
  - intros x Hx. apply in_map_iff in Hx as (k & <- & _). lra.
  - unfold Rmean, Rsum. cbn [seq map length fold_right]. cbn [INR]. lra.
  - exists out. split; [exact E1|]. rewrite E2. reflexivity.
Qed.
Print Assumptions C42_sun_below_horizon.
(** latitude 90 on the first day of 2001: night all day *)
Example C42_met : forall h, (h < 24)%nat -> (sun_height (doy_of_day 11323) (Z.of_nat h) 0 0 90 0 <= 0)%R.
Proof.
  intros h Hh. unfold sun_height. replace (90 * (PI / 180))%R with (PI / 2)%R by lra. rewrite sin_PI2, cos_PI2.
  assert (S0 : (sin (sun_decl (doy_of_day 11323)) <= 0)%R).
  { change (doy_of_day 11323) with 1. unfold sun_decl.
    pose proof PI_RGT_0 as PP.
    assert (CN : (cos (2 * PI * (1 - 173) / 365.25) < 0)%R).
    { replace (2 * PI * (1 - 173) / 365.25)%R with (- (344 / 365.25 * PI))%R by lra. rewrite cos_neg. apply cos_lt_0; lra. }
    pose proof (COS_bound (2 * PI * (1 - 173) / 365.25)) as CB. set (c := cos _) in *.
    left. apply sin_lt_0_var; nra. }
  rewrite Rmult_0_r, Rmult_0_l. lra.
Qed.

(** ** C43 *)
Theorem C43_flat doy h mi lon lat tz az cl :
  let H := sun_height doy h mi lon lat tz in (H < 1)%R -> (0 <= cl <= 1)%R ->
  exists dir dif, potential_radiation1 doy h mi (Fin lon) (Fin lat) (Fin tz) (Fin 0) (Fin az) (Fin cl) = (Fin dir, Fin dif) /\
    (0 <= dir)%R /\ (0 <= dif)%R /\ (dir + dif <= 1367 * 1.0351 * 0.8 * Rmax 0 H)%R /\
    ((H <= 0)%R -> dir = 0%R /\ dif = 0%R) /\ ((0 < H)%R -> (0 < dir + dif)%R).
Proof.
  intros H HH HC. pose proof (pot_flat doy h mi lon lat tz az cl HH) as E. fold H in E. cbv zeta in E.
  eexists; eexists. split; [exact E|]. pose proof (sun_ratio_bounds doy) as RB. set (r := sun_ratio doy) in *. unfold day_height.
  set (c := Rmax 0 H). assert (CB : (0 <= c <= 1)%R) by (unfold c, Rmax; destruct (Rle_dec 0 H); lra).
  set (D := (1367 * r * ((0.6 + 0.2 * c) * (1 - cl)) * c)%R).
  assert (S1 : (1319 <= 1367 * r <= 1367 * 1.0351)%R) by lra. set (s := (1367 * r)%R) in *. clearbody s.
  assert (D0 : (0 <= D)%R) by (unfold D; repeat apply Rmult_le_pos; lra).
  assert (F0 : (0 <= s * ((0.3 + 0.1 * c) * cl) * c)%R) by (repeat apply Rmult_le_pos; lra).
  rewrite (Rmax_right 0 D D0). split; [exact D0|]. split; [exact F0|].
  assert (EQ : (D + s * ((0.3 + 0.1 * c) * cl) * c = s * ((0.6 + 0.2 * c) * (1 - cl) + (0.3 + 0.1 * c) * cl) * c)%R) by (unfold D; ring).
  split; [|split].
  - rewrite EQ. apply Rmult_le_compat_r; [lra|]. apply Rmult_le_compat; try lra; nra.
  - intro HN. assert (c = 0%R) by (unfold c; apply Rmax_left; exact HN). unfold D. split; rewrite H0; ring.
  - intro HP. rewrite EQ. assert (0 < c)%R by (unfold c; rewrite Rmax_right; lra). apply Rmult_lt_0_compat; [|assumption]. apply Rmult_lt_0_compat; [lra|]. nra.
Qed.
Print Assumptions C43_flat.
(** any terrain: both parts are numbers and not negative *)
Theorem C43_any_terrain doy h mi lon lat tz slope az cl :
  (sun_height doy h mi lon lat tz < 1)%R -> (0 <= cl <= 1)%R ->
  exists dir dif, potential_radiation1 doy h mi (Fin lon) (Fin lat) (Fin tz) (Fin slope) (Fin az) (Fin cl) = (Fin dir, Fin dif) /\
    (0 <= dir <= 1367 * 1.0351 * 0.8)%R /\ (0 <= dif <= 1367 * 1.0351 * 0.4 * Rmax 0 (sun_height doy h mi lon lat tz))%R.
Proof.
  set (H := sun_height doy h mi lon lat tz). intros HH HC. pose proof (pot_value doy h mi lon lat tz slope az cl HH) as E. fold H in E. cbv zeta in E.
  eexists; eexists. split; [exact E|]. pose proof (sun_ratio_bounds doy) as RB. set (r := sun_ratio doy) in *. unfold incidence, day_height.
  set (c := Rmax 0 H). assert (CB : (0 <= c <= 1)%R) by (unfold c, Rmax; destruct (Rle_dec 0 H); lra).
  assert (S1 : (1319 <= 1367 * r <= 1367 * 1.0351)%R) by lra. set (s := (1367 * r)%R) in *. clearbody s.
  set (mu := sun_azimuth doy h mi lon lat tz). clearbody mu.
  split; [|split; [repeat apply Rmult_le_pos; lra|]].
  - split; [apply Rmax_l|]. apply Rmax_lub; [lra|].
    assert (I1 : (cos slope * c + sin slope * sqrt (1 - c²) * cos (mu - az) <= 1)%R).
    { assert (Q0 : (0 <= 1 - c²)%R) by (unfold Rsqr; nra). pose proof (sqrt_sqrt _ Q0) as Q1. pose proof (sqrt_pos (1 - c²)) as Q2. set (q := sqrt (1 - c²)) in *.
      assert (QC : (c * c + q * q = 1)%R) by (unfold Rsqr in Q1; lra). clearbody q. pose proof (sin2_cos2 slope) as SC. unfold Rsqr in SC. pose proof (COS_bound (mu - az)) as CM.
      set (sl := sin slope) in *. set (cs := cos slope) in *. set (cm := cos (mu - az)) in *. clearbody sl cs cm.
      pose proof (Rle_0_sqr (cs - c)) as K1. pose proof (Rle_0_sqr (sl * 1 - q * cm)) as K2. unfold Rsqr in K1, K2.
      assert (CM2 : (cm * cm <= 1)%R) by nra. assert (q * q * (cm * cm) <= q * q)%R by nra. nra. }
    set (I := (cos slope * c + sin slope * sqrt (1 - c²) * cos (mu - az))%R) in *. clearbody I.
    assert (T : (0 <= s * ((0.6 + 0.2 * c) * (1 - cl)) <= 1367 * 1.0351 * 0.8)%R).
    { split; [repeat apply Rmult_le_pos; lra|]. apply Rmult_le_compat; try lra; [apply Rmult_le_pos; lra|nra]. }
    set (T' := (s * ((0.6 + 0.2 * c) * (1 - cl)))%R) in *. clearbody T'. nra.
  - apply Rmult_le_compat_r; [lra|]. apply Rmult_le_compat; try lra; [apply Rmult_le_pos; lra|nra].
Qed.
Print Assumptions C43_any_terrain.
(** the series returned is the sum of the two parts, at the labels given *)
Theorem C43_sum dates lon lat tz slope az cl t v : entry_of t (potential_radiation dates lon lat tz slope az cl) = Some v <->
  In t dates /\ v = (fst (potential_radiation1 (doy_of_day (date_of t)) (hour_of t) (minute_of t) lon lat tz slope az cl)
                     + snd (potential_radiation1 (doy_of_day (date_of t)) (hour_of t) (minute_of t) lon lat tz slope az cl))%num.
Proof.
  unfold potential_radiation, potential_split. rewrite map_map. cbn [fst snd].
  induction dates as [|u l IH]; cbn [map entry_of In]; [split; [discriminate|intros [[] _]]|].
  destruct (Z.eqb_spec u t) as [->|N].
  - split; [intro E; injection E as <-; tauto|intros [_ ->]; reflexivity].
  - rewrite IH. split; intros [A B]; split; tauto.
Qed.
Print Assumptions C43_sum.
(** the sun exactly in the zenith: not a number *)
Theorem C43_zenith_nan doy h mi lon lat tz slope az cl : sun_height doy h mi lon lat tz = 1%R ->
  fst (potential_radiation1 doy h mi (Fin lon) (Fin lat) (Fin tz) (Fin slope) (Fin az) (Fin cl)) = NaN.
Proof. apply pot_zenith. Qed.
Print Assumptions C43_zenith_nan.
(** noon of the 173rd day on the tropic, and an ordinary time *)
Example C43_zenith_met : sun_height 173 12 0 0 23.43697 0 = 1%R.
Proof.
  unfold sun_height, sun_decl, sun_hour_angle. replace (2 * PI * (173 - 173) / 365.25)%R with 0%R by lra. rewrite cos_0.
  replace (PI * ((12 + 0 / 60 + (0 - 0 * 15) / 15) / 12 - 1))%R with 0%R by lra. rewrite cos_0, !Rmult_1_r.
  pose proof (sin2_cos2 (23.43697 * (PI / 180))) as Q. unfold Rsqr in Q. lra.
Qed.
Example C43_met : (sun_height 173 0 0 0 0 0 < 1)%R.
Proof.
  unfold sun_height, sun_decl, sun_hour_angle. replace (2 * PI * (173 - 173) / 365.25)%R with 0%R by lra. rewrite cos_0.
  replace (PI * ((0 + 0 / 60 + (0 - 0 * 15) / 15) / 12 - 1))%R with (- PI)%R by lra. rewrite cos_neg, cos_PI, Rmult_0_l, sin_0, cos_0.
  pose proof (COS_bound (23.43697 * (PI / 180) * 1)). assert (0 < cos (23.43697 * (PI / 180) * 1))%R; [|lra].
  pose proof PI_RGT_0. apply cos_gt_0; lra.
Qed.

(** ** C74 *)
Theorem C74_slope_at_night doy h mi lon lat tz slope az cl :
  (sun_height doy h mi lon lat tz <= 0)%R -> (0 < slope < PI)%R -> (0 < cos (sun_azimuth doy h mi lon lat tz - az))%R -> (0 <= cl < 1)%R ->
  exists dir, potential_radiation1 doy h mi (Fin lon) (Fin lat) (Fin tz) (Fin slope) (Fin az) (Fin cl) = (Fin dir, Fin 0) /\
    (dir = 1367 * sun_ratio doy * 0.6 * (1 - cl) * (sin slope * cos (sun_azimuth doy h mi lon lat tz - az)))%R /\ (0 < dir)%R.
Proof.
  set (H := sun_height doy h mi lon lat tz). intros HN HS HA HC. assert (HH : (H < 1)%R) by lra.
  pose proof (pot_value doy h mi lon lat tz slope az cl HH) as E. fold H in E. cbv zeta in E. pose proof (sun_ratio_bounds doy) as RB.
  assert (DH : day_height H = 0%R) by (unfold day_height; apply Rmax_left; exact HN). unfold incidence in E. rewrite DH in E.
  replace (1 - 0²)%R with 1%R in E by (unfold Rsqr; ring). rewrite sqrt_1 in E.
  set (mu := sun_azimuth doy h mi lon lat tz) in *. set (r := sun_ratio doy) in *. clearbody mu r.
  pose proof (sin_gt_0 slope (proj1 HS) (proj2 HS)) as SS.
  set (v := (1367 * r * 0.6 * (1 - cl) * (sin slope * cos (mu - az)))%R).
  assert (VP : (0 < v)%R) by (unfold v; apply Rmult_lt_0_compat; [apply Rmult_lt_0_compat; lra|apply Rmult_lt_0_compat; lra]).
  exists v. split; [|split; [reflexivity|exact VP]]. rewrite E.
  replace (1367 * r * ((0.6 + 0.2 * 0) * (1 - cl)) * (cos slope * 0 + sin slope * 1 * cos (mu - az)))%R with v by (unfold v; ring).
  rewrite Rmax_right by lra. f_equal. f_equal. ring.
Qed.
Print Assumptions C74_slope_at_night.
(** local midnight at 45 degrees north in midwinter or midsummer, slope of 30 degrees facing the azimuth 0 *)
Theorem C74_midnight doy tz : exists dir,
  potential_radiation1 doy 0 0 (Fin (15 * tz)) (Fin 45) (Fin tz) (Fin (PI / 6)) (Fin 0) (Fin 0) = (Fin dir, Fin 0) /\ (395 < dir)%R.
Proof.
  assert (HA : sun_hour_angle 0 0 (15 * tz) tz = (- PI)%R) by (unfold sun_hour_angle; field).
  assert (AZ : sun_azimuth doy 0 0 (15 * tz) 45 tz = 0%R).
  { unfold sun_azimuth. rewrite HA, sin_neg, sin_PI, Ropp_0, Rmult_0_r. unfold Rdiv. rewrite Rmult_0_l. apply asin_0. }
  pose proof PI_RGT_0 as PP.
  assert (HH : (sun_height doy 0 0 (15 * tz) 45 tz < 0)%R).
  { unfold sun_height. rewrite HA, cos_neg, cos_PI. set (d := sun_decl doy). set (p := (45 * (PI / 180))%R).
    replace (sin d * sin p + cos d * cos p * -1)%R with (- (cos d * cos p - sin d * sin p))%R by ring. rewrite <- cos_plus.
    assert (DB : (- (PI / 6) < d < PI / 6)%R).
    { unfold d, sun_decl. pose proof (COS_bound (2 * PI * (IZR doy - 173) / 365.25)). set (c := cos _) in *. clearbody c. split; nra. }
    assert (0 < cos (d + p))%R; [|lra]. unfold p in *. apply cos_gt_0; lra. }
  destruct (C74_slope_at_night doy 0 0 (15 * tz) 45 tz (PI / 6) 0 0) as (dir & E & V & _); try lra.
  - rewrite AZ, Rminus_0_r, cos_0. lra.
  - exists dir. split; [exact E|]. rewrite V, AZ, !Rminus_0_r, cos_0, sin_PI6. pose proof (sun_ratio_bounds doy). lra.
Qed.
Print Assumptions C74_midnight.

(** ** C44 *)
Definition angstroem_R (a b s dl pm : R) : R := ((a + b * (s / dl)) * pm)%R.
Theorem C44_angstroem_bounds a b s dl pm : (0 <= a)%R -> (0 <= b)%R -> (0 < dl)%R -> (0 <= s <= dl)%R -> (0 <= pm)%R ->
  angstroem1 (Fin s) (Fin dl) (Fin pm) (Fin a) (Fin b) = Fin (angstroem_R a b s dl pm) /\
  (a * pm <= angstroem_R a b s dl pm <= (a + b) * pm)%R /\
  (forall s', (s <= s')%R -> (angstroem_R a b s dl pm <= angstroem_R a b s' dl pm)%R).
Proof.
  intros HA HB HD HS HP. unfold angstroem_R. split; [|split].
  - unfold angstroem1. rewrite xmul_Fin, xdiv_Fin by lra. rewrite xadd_Fin, xmul_Fin. f_equal. field. lra.
  - assert (Q : (0 <= s / dl <= 1)%R).
    { split; [apply Rmult_le_pos; [lra|left; apply Rinv_0_lt_compat; exact HD]|]. apply Rmult_le_reg_r with dl; [exact HD|]. unfold Rdiv. rewrite Rmult_assoc, Rinv_l by lra. lra. }
    split; apply Rmult_le_compat_r; try exact HP; nra.
  - intros s' HS'. apply Rmult_le_compat_r; [exact HP|]. apply Rplus_le_compat_l, Rmult_le_compat_l; [exact HB|].
    apply Rmult_le_compat_r; [left; apply Rinv_0_lt_compat; exact HD|exact HS'].
Qed.
Print Assumptions C44_angstroem_bounds.

(** 'pot_rad_via_ssd': the day gets the shape of its potential radiation and Angstroem's daily mean, which lies
    between a and a + b times the mean potential radiation *)
Theorem C44_via_ssd e d d0 n ssd (st : sun_table) pot ps1 fa fb ps2 mc i p s dl a b :
  day_frame d d0 n -> has_column d "ssd" ssd -> map fst st = daily_index d0 n -> map fst pot = hours_index d0 n -> params_for ps1 fa fb -> (i < n)%nat ->
  values_on (d0 + Z.of_nat i) pot = map Fin p -> (forall x, In x p -> (0 <= x)%R) -> (0 < Rmean p)%R ->
  nth_error ssd i = Some (Fin s) -> nth_error (map (fun r => daylength (snd r)) st) i = Some (Fin dl) ->
  (0 < dl)%R -> (0 <= s <= dl)%R ->
  fa (month_of_day (d0 + Z.of_nat i)) = Fin a -> fb (month_of_day (d0 + Z.of_nat i)) = Fin b -> (0 <= a)%R -> (0 <= b)%R ->
  exists out q g, disaggregate_radiation e d (Some st) (Some pot) "pot_rad_via_ssd" ps1 ps2 mc = Ok out /\ map fst out = hours_index d0 n /\
    values_on (d0 + Z.of_nat i) out = map Fin q /\ shaped p g q /\
    g = ((a + b * (s / dl)) * Rmean p)%R /\ (a * Rmean p <= g <= (a + b) * Rmean p)%R.
Proof.
  intros F C ES EP HP Hi EV PP PM EW ED HD HS EA EB HA HB.
  destruct (C44_angstroem_bounds a b s dl (Rmean p) HA HB HD HS ltac:(lra)) as (V & B & _).
  pose proof (rad_ssd e d d0 n ssd st pot ps1 fa fb ps2 mc F C ES EP HP) as R.
  set (G := fun i => let dl := nth i (map (fun p => daylength (snd p)) st) NaN in let m := month_of_day (d0 + Z.of_nat i) in
     if (dl >? n0)%num then angstroem1 (nth i ssd NaN) dl (nanmean (values_on (d0 + Z.of_nat i) pot)) (fa m) (fb m) else n0) in R.
  change (map _ (seq 0 n)) with (map G (seq 0 n)) in R.
  eexists; exists (scaled p (angstroem_R a b s dl (Rmean p))), (angstroem_R a b s dl (Rmean p)). split; [exact R|]. split; [rewrite scale_index; exact EP|].
  assert (GI : nth i (map G (seq 0 n)) NaN = Fin (angstroem_R a b s dl (Rmean p))).
  { rewrite (nth_indep _ NaN (G O)) by (rewrite map_length, seq_length; exact Hi). rewrite (map_nth G), seq_nth by exact Hi. cbn [Nat.add]. unfold G.
    rewrite (nth_error_nth _ i NaN ED), (nth_error_nth _ i NaN EW), EV, EA, EB. cbv zeta.
    replace (Fin dl >? n0)%num with true by (change (Fin dl >? n0)%num with (Fin 0 <? Fin dl)%num; rewrite xltb_Fin; destruct (Rltb_spec 0 dl); [reflexivity|contradiction]).
    rewrite nanmean_numeric; [rewrite fins_Fin; exact V|apply numeric_Fin|rewrite fins_Fin; apply Rmean_pos_nonempty; lra]. }
  split; [|split; [|split; [reflexivity|exact B]]].
  - rewrite (scale_day pot d0 n (map G (seq 0 n)) i EP ltac:(rewrite map_length, seq_length; reflexivity) Hi), EV, GI.
    apply scaled_day; [apply Rmean_pos_nonempty; lra|lra].
  - apply scaled_shaped; [exact PP|exact PM|]. assert (0 <= a * Rmean p)%R by (apply Rmult_le_pos; lra). lra.
Qed.
Print Assumptions C44_via_ssd.
(** days without daylight get 0 (if they have any potential radiation) *)
Theorem C44_no_daylight e d d0 n ssd (st : sun_table) pot ps1 fa fb ps2 mc i p dl :
  day_frame d d0 n -> has_column d "ssd" ssd -> map fst st = daily_index d0 n -> map fst pot = hours_index d0 n -> params_for ps1 fa fb -> (i < n)%nat ->
  values_on (d0 + Z.of_nat i) pot = map Fin p -> (0 < Rmean p)%R ->
  nth_error (map (fun r => daylength (snd r)) st) i = Some (Fin dl) -> (dl <= 0)%R ->
  exists out, disaggregate_radiation e d (Some st) (Some pot) "pot_rad_via_ssd" ps1 ps2 mc = Ok out /\
    values_on (d0 + Z.of_nat i) out = map (fun _ => Fin 0) p.
Proof.
  intros F C ES EP HP Hi EV PM ED HD.
  pose proof (rad_ssd e d d0 n ssd st pot ps1 fa fb ps2 mc F C ES EP HP) as R.
  set (G := fun i => let dl := nth i (map (fun p => daylength (snd p)) st) NaN in let m := month_of_day (d0 + Z.of_nat i) in
     if (dl >? n0)%num then angstroem1 (nth i ssd NaN) dl (nanmean (values_on (d0 + Z.of_nat i) pot)) (fa m) (fb m) else n0) in R.
  change (map _ (seq 0 n)) with (map G (seq 0 n)) in R.
  eexists. split; [exact R|].
  assert (GI : nth i (map G (seq 0 n)) NaN = Fin 0).
  { rewrite (nth_indep _ NaN (G O)) by (rewrite map_length, seq_length; exact Hi). rewrite (map_nth G), seq_nth by exact Hi. cbn [Nat.add]. unfold G.
    rewrite (nth_error_nth _ i NaN ED). cbv zeta.
    replace (Fin dl >? n0)%num with false by (change (Fin dl >? n0)%num with (Fin 0 <? Fin dl)%num; rewrite xltb_Fin; destruct (Rltb_spec 0 dl); [lra|reflexivity]). reflexivity. }
  rewrite (scale_day pot d0 n (map G (seq 0 n)) i EP ltac:(rewrite map_length, seq_length; reflexivity) Hi), EV, GI.
  rewrite scaled_day; [|apply Rmean_pos_nonempty; lra|lra]. unfold scaled. rewrite map_map. apply map_ext. intro x. f_equal. rewrite Rmult_0_r. unfold cut_R.
  destruct (Rlt_dec 0 (1 / 100)); lra.
Qed.
Print Assumptions C44_no_daylight.

(** 'pot_rad_via_bc' *)
Theorem C44_via_bc e d d0 n tmin tmax st pot ps1 ps2 fa fb mc i p dt A C :
  day_frame d d0 n -> has_column d "tmin" tmin -> has_column d "tmax" tmax -> numeric tmin -> numeric tmax ->
  map fst pot = hours_index d0 n -> params_for ps2 fa fb -> (i < n)%nat ->
  values_on (d0 + Z.of_nat i) pot = map Fin p -> (forall x, In x p -> (0 <= x)%R) -> (0 < Rmean p)%R ->
  day_dT tmin tmax i = Some dt -> (0 <= dt)%R ->
  fa (month_of_day (d0 + Z.of_nat i)) = Fin A -> fb (month_of_day (d0 + Z.of_nat i)) = Fin C -> (0 <= A)%R -> (0 < C)%R ->
  exists out q g, disaggregate_radiation e d st (Some pot) "pot_rad_via_bc" ps1 ps2 mc = Ok out /\ map fst out = hours_index d0 n /\
    values_on (d0 + Z.of_nat i) out = map Fin q /\ shaped p g q /\
    g = (bc_R A C (Rmean (month_dT tmin tmax d0 (month_of_day (d0 + Z.of_nat i)))) dt * Rmean p)%R /\ (0 <= g <= A * Rmean p)%R.
Proof.
  intros F C1 C2 N1 N2 EP HP Hi EV PP PM ED HD EA EB HA HC. destruct (column_daily d d0 n "tmin" tmin F C1) as [_ L1].
  pose proof (rad_bc e d d0 n tmin tmax st pot ps1 ps2 fa fb mc F C1 C2 EP HP) as R.
  match type of R with _ = Ok (scale _ _ (daily d0 (map ?f (seq 0 n)))) => set (G := f) in R end.
  set (avg := Rmean (month_dT tmin tmax d0 (month_of_day (d0 + Z.of_nat i)))).
  pose proof (bc_R_range A C avg dt HA HD) as B. set (k := bc_R A C avg dt) in *.
  eexists; exists (scaled p (k * Rmean p)), (k * Rmean p)%R. split; [exact R|]. split; [rewrite scale_index; exact EP|].
  assert (ME : month_avg tmin tmax d0 (month_of_day (d0 + Z.of_nat i)) = Fin avg).
  { rewrite month_avg_ok by assumption. unfold avg. destruct (month_dT tmin tmax d0 (month_of_day (d0 + Z.of_nat i))) eqn:E; [|reflexivity]. exfalso.
    assert (IN : In dt (month_dT tmin tmax d0 (month_of_day (d0 + Z.of_nat i)))).
    { unfold month_dT. apply in_flat_map. exists i. split; [apply in_seq; lia|]. rewrite Z.eqb_refl, ED. left. reflexivity. }
    rewrite E in IN. destruct IN. }
  assert (GI : nth i (map G (seq 0 n)) NaN = Fin (k * Rmean p)).
  { rewrite (nth_indep _ NaN (G O)) by (rewrite map_length, seq_length; exact Hi). rewrite (map_nth G), seq_nth by exact Hi. cbn [Nat.add]. unfold G.
    rewrite EV, EA, EB, ME, dT_ok, ED by assumption.
    rewrite nanmean_numeric; [rewrite fins_Fin; apply bc1_ok; assumption|apply numeric_Fin|rewrite fins_Fin; apply Rmean_pos_nonempty; lra]. }
  split; [|split; [|split; [reflexivity|]]].
  - rewrite (scale_day pot d0 n (map G (seq 0 n)) i EP ltac:(rewrite map_length, seq_length; reflexivity) Hi), EV, GI.
    apply scaled_day; [apply Rmean_pos_nonempty; lra|lra].
  - apply scaled_shaped; [exact PP|exact PM|]. apply Rmult_le_pos; lra.
  - split; [apply Rmult_le_pos; lra|apply Rmult_le_compat_r; lra].
Qed.
Print Assumptions C44_via_bc.

(** ** C75 *)
Theorem C75_negative_range_is_nan e d d0 n tmin tmax st pot ps1 ps2 fa fb mc i dt C :
  day_frame d d0 n -> has_column d "tmin" tmin -> has_column d "tmax" tmax -> numeric tmin -> numeric tmax ->
  map fst pot = hours_index d0 n -> params_for ps2 fa fb -> (i < n)%nat ->
  day_dT tmin tmax i = Some dt -> (dt < 0)%R -> fb (month_of_day (d0 + Z.of_nat i)) = Fin C -> (forall z, C <> IZR z) ->
  exists out, disaggregate_radiation e d st (Some pot) "pot_rad_via_bc" ps1 ps2 mc = Ok out /\
    values_on (d0 + Z.of_nat i) out = map (fun _ => NaN) (values_on (d0 + Z.of_nat i) pot).
Proof.
  intros F C1 C2 N1 N2 EP HP Hi ED HD EB HC.
  pose proof (rad_bc e d d0 n tmin tmax st pot ps1 ps2 fa fb mc F C1 C2 EP HP) as R.
  match type of R with _ = Ok (scale _ _ (daily d0 (map ?f (seq 0 n)))) => set (G := f) in R end.
  eexists. split; [exact R|].
  assert (GI : nth i (map G (seq 0 n)) NaN = NaN).
  { rewrite (nth_indep _ NaN (G O)) by (rewrite map_length, seq_length; exact Hi). rewrite (map_nth G), seq_nth by exact Hi. cbn [Nat.add]. unfold G.
    rewrite EB, dT_ok, ED by assumption. apply bc1_neg; assumption. }
  rewrite (scale_day pot d0 n (map G (seq 0 n)) i EP ltac:(rewrite map_length, seq_length; reflexivity) Hi), GI. apply map_ext. intro x.
  replace (x / nanmean (values_on (d0 + Z.of_nat i) pot) * NaN)%num with NaN; [apply cut_NaN|].
  destruct (x / nanmean (values_on (d0 + Z.of_nat i) pot))%num; reflexivity.
Qed.
Print Assumptions C75_negative_range_is_nan.
(** a cold front: tomorrow's minimum is above today's maximum; the default exponent is 2.4 *)
Example C75_met : day_dT [Fin 0; Fin 20] [Fin 5; Fin 25] 0 = Some (-5)%R /\ (forall z, 2.4%R <> IZR z).
Proof.
  split.
  - unfold day_dT. cbn [nth next_day length Nat.eqb]. f_equal. lra.
  - intros z H. assert (Q : IZR (12) = IZR (5 * z)) by (rewrite mult_IZR, <- H; lra). apply eq_IZR in Q. lia.
Qed.
Example C44_met : day_dT [Fin 0; Fin 2] [Fin 5; Fin 25] 0 = Some 4%R /\ numeric [Fin 0; Fin 2] /\
  params_for (PScalar (Fin 0.75) (Fin 2.4)) (fun _ => Fin 0.75) (fun _ => Fin 2.4).
Proof. split; [|split]; [unfold day_dT; cbn [nth next_day length Nat.eqb]; f_equal; lra|repeat constructor|cbn; auto]. Qed.

(** ** C45 *)
Section C45.
  (** arbitrary fitting routines; a station with hourly data [df] with column "glob", daily data [dd] *)
  Variable curve_fit minimize_bias : list (Z * (xr * xr * xr * xr)) -> res (xr * xr).
  Variables (e : env) (df dd : dframe xr) (glob : list xr) (hours : list Z) (lon lat tz : xr) (dl : option (series xr)) (how : string) (st : glob_stats).
  Hypothesis HOW : In how ["all"; "seasonal"; "monthly"].
  Hypothesis GLOB : assoc "glob" (f_cols df) = Some glob.
  Hypothesis HOURS : hourly_index e (f_index dd) = Ok hours.
  (** daily means of the potential and of the observed radiation *)
  Let pot := resample us_day nanmean (potential_radiation hours lon lat tz n0 n0 n0).
  Let obs := resample us_day nanmean (combine (f_index df) glob).
  Let run := calc_radiation_stats curve_fit minimize_bias e (Some df) (Some lon) (Some lat) (Some tz) (Some dd) dl how st.
  (** month m of the table got the fit for the group ms *)
  Let fitted (fit : list (Z * (xr * xr * xr * xr)) -> res (xr * xr)) (a b : series xr) (ms : list Z) (tbl : list (Z * (xr * xr))) : Prop :=
    exists rows v, complete_rows ms a b pot obs rows /\ fit rows = Ok v /\ forall m, In m ms -> entry_of m tbl = Some v.

  Theorem C45_angstroem_groups ssd dls st' : assoc "ssd" (f_cols dd) = Some ssd -> dl = Some dls -> run = (st', None) ->
    forall ms, In ms (month_groups how) -> fitted curve_fit (combine (f_index dd) ssd) dls ms (g_angstroem st').
  Proof.
    intros ES ED R ms Hms. unfold run in R. rewrite (run_eq curve_fit minimize_bias e df dd glob hours lon lat tz dl how st HOW GLOB HOURS) in R. cbv zeta in R.
    rewrite ES, ED in R. fold pot in R. fold obs in R.
    destruct (fit_loop _ (month_groups how) (g_angstroem st)) as [ta ea] eqn:EA.
    destruct (fit_loop_spec _ _ (month_groups_nodup how) _ _ _ EA) as (dn & rest & E1 & E2 & E3 & _).
    assert (TA : g_angstroem st' = ta /\ ea = None).
    { destruct ea; [discriminate|]. destruct (assoc "tmin" (f_cols dd)), (assoc "tmax" (f_cols dd)); try (injection R as <-; split; reflexivity).
      destruct (fit_loop _ _ (g_bristcamp st)). injection R as <- ->. split; reflexivity. }
    destruct TA as [<- ->]. subst rest. rewrite app_nil_r in E1. rewrite E1 in Hms.
    destruct (E3 ms Hms) as (v & V1 & V2). do 2 eexists. split; [apply angstroem_rows|]. split; [exact V1|]. exact V2.
  Qed.

  Theorem C45_bristcamp_groups tmin tmax st' : assoc "tmin" (f_cols dd) = Some tmin -> assoc "tmax" (f_cols dd) = Some tmax -> run = (st', None) ->
    how <> "monthly" \/ assoc "ssd" (f_cols dd) = None \/ dl = None ->
    forall ms, In ms (month_groups how) -> fitted minimize_bias (combine (f_index dd) tmin) (combine (f_index dd) tmax) ms (g_bristcamp st').
  Proof.
    intros E1 E2 R HC ms Hms. unfold run in R. rewrite (run_eq curve_fit minimize_bias e df dd glob hours lon lat tz dl how st HOW GLOB HOURS) in R. cbv zeta in R.
    rewrite E1, E2 in R. fold pot in R. fold obs in R.
    assert (EG : (if (match assoc "ssd" (f_cols dd) with Some _ => match dl with Some _ => true | None => false end | None => false end) && String.eqb how "monthly" then [] else month_groups how) = month_groups how).
    { destruct HC as [N|[N|N]].
      - apply String.eqb_neq in N. rewrite N, andb_false_r. reflexivity.
      - rewrite N. reflexivity.
      - rewrite N. destruct (assoc "ssd" (f_cols dd)); reflexivity. }
    rewrite EG in R. match type of R with (let '(_, _) := ?q in _) = _ => destruct q as [ta [x|]] end; [discriminate|].
    destruct (fit_loop _ _ (g_bristcamp st)) as [tb eb] eqn:EB. injection R as <- ->.
    destruct (fit_loop_spec _ _ (month_groups_nodup how) _ _ _ EB) as (dn & rest & Q1 & Q2 & Q3 & _). subst rest. rewrite app_nil_r in Q1. rewrite Q1 in Hms.
    destruct (Q3 ms Hms) as (v & V1 & V2). do 2 eexists. split; [apply bristcamp_rows|]. split; [exact V1|]. exact V2.
  Qed.

  (** the deviation *)
  Theorem C45_monthly_skips_bristcamp ssd dls : assoc "ssd" (f_cols dd) = Some ssd -> dl = Some dls -> how = "monthly" ->
    g_bristcamp (fst run) = g_bristcamp st.
  Proof.
    intros ES ED EM. unfold run. rewrite (run_eq curve_fit minimize_bias e df dd glob hours lon lat tz dl how st HOW GLOB HOURS). cbv zeta.
    rewrite ES, ED, EM. cbn [andb String.eqb Ascii.eqb Bool.eqb fit_loop]. destruct (fit_loop _ (month_groups "monthly") (g_angstroem st)) as [ta [x|]]; [reflexivity|].
    destruct (assoc "tmin" (f_cols dd)), (assoc "tmax" (f_cols dd)); reflexivity.
  Qed.
  (** without sunshine data, or day lengths, the Angstroem table stays as it was; without temperatures the other one *)
  Theorem C45_untouched : (assoc "ssd" (f_cols dd) = None \/ dl = None -> g_angstroem (fst run) = g_angstroem st) /\
    (assoc "tmin" (f_cols dd) = None \/ assoc "tmax" (f_cols dd) = None -> g_bristcamp (fst run) = g_bristcamp st).
  Proof.
    unfold run. rewrite (run_eq curve_fit minimize_bias e df dd glob hours lon lat tz dl how st HOW GLOB HOURS). cbv zeta. split; intro H.
    - assert (S0 : match assoc "ssd" (f_cols dd) with Some _ => match dl with Some _ => true | None => false end | None => false end = false)
        by (destruct H as [-> | ->]; [reflexivity|destruct (assoc "ssd" (f_cols dd)); reflexivity]).
      rewrite S0. destruct (assoc "tmin" (f_cols dd)), (assoc "tmax" (f_cols dd)); try reflexivity. destruct (fit_loop _ _ (g_bristcamp st)); reflexivity.
    - assert (S0 : match assoc "tmin" (f_cols dd) with Some _ => match assoc "tmax" (f_cols dd) with Some _ => true | None => false end | None => false end = false)
        by (destruct H as [-> | ->]; [reflexivity|destruct (assoc "tmin" (f_cols dd)); reflexivity]).
      rewrite S0. match goal with |- g_bristcamp (fst (let '(_, _) := ?q in _)) = _ => destruct q as [ta [x|]] end; reflexivity.
  Qed.
  (** a fit that raises leaves the groups before it stored and the rest unchanged *)
  Theorem C45_interrupted ssd dls st' err : assoc "ssd" (f_cols dd) = Some ssd -> dl = Some dls -> run = (st', Some err) ->
    exists done rest, month_groups how = done ++ rest /\
      (rest = [] \/ exists ms r rows, rest = ms :: r /\ complete_rows ms (combine (f_index dd) ssd) dls pot obs rows /\ curve_fit rows = Err err /\
                                   g_bristcamp st' = g_bristcamp st) /\
      (forall ms, In ms done -> fitted curve_fit (combine (f_index dd) ssd) dls ms (g_angstroem st')) /\
      (forall m, (forall ms, In ms done -> ~ In m ms) -> entry_of m (g_angstroem st') = entry_of m (g_angstroem st)).
  Proof.
    intros ES ED R. unfold run in R. rewrite (run_eq curve_fit minimize_bias e df dd glob hours lon lat tz dl how st HOW GLOB HOURS) in R. cbv zeta in R.
    rewrite ES, ED in R. fold pot in R. fold obs in R.
    destruct (fit_loop _ (month_groups how) (g_angstroem st)) as [ta ea] eqn:EA.
    destruct (fit_loop_spec _ _ (month_groups_nodup how) _ _ _ EA) as (dn & rest & E1 & E2 & E3 & E4).
    assert (TA : g_angstroem st' = ta).
    { destruct ea; [injection R as <- _; reflexivity|]. destruct (assoc "tmin" (f_cols dd)), (assoc "tmax" (f_cols dd)); try (injection R as <-; reflexivity); try discriminate.
      destruct (fit_loop _ _ (g_bristcamp st)). injection R as <- ->. reflexivity. }
    exists dn, rest. split; [exact E1|]. split.
    { destruct ea as [x|]; [right|left; exact E2]. destruct E2 as (ms & r & -> & EF). injection R as <- ->. exists ms, r. eexists. split; [reflexivity|].
      split; [apply angstroem_rows|]. split; [exact EF|reflexivity]. }
    rewrite TA. split.
    - intros ms Hms. destruct (E3 ms Hms) as (v & V1 & V2). do 2 eexists. split; [apply angstroem_rows|]. split; [exact V1|]. exact V2.
    - intros m Hm. apply E4. intro HI. apply in_concat in HI as (ms & H1 & H2). apply (Hm ms H1 H2).
  Qed.
End C45.
Print Assumptions C45_angstroem_groups.
Print Assumptions C45_bristcamp_groups.
Print Assumptions C45_monthly_skips_bristcamp.
Print Assumptions C45_untouched.
Print Assumptions C45_interrupted.
(** every month belongs to exactly one group *)
Example C45_groups_cover how m : In m (concat (month_groups how)) <-> 1 <= m <= 12.
Proof. apply month_groups_all. Qed.
(** fits that always succeed: the whole run succeeds, and with how='monthly' the bristcamp table keeps its defaults *)
Definition ex_daily : dframe xr := {| f_index := daily_index 100 1; f_cols := [("ssd", [Fin 3]); ("tmin", [Fin 1]); ("tmax", [Fin 9])] |}.
Definition ex_hourly : dframe xr := {| f_index := [100 * us_day]; f_cols := [("glob", [Fin 3])] |}.
Example C45_met how : In how ["all"; "seasonal"; "monthly"] -> exists st',
  calc_radiation_stats (fun _ => Ok (Fin 1, Fin 2)) (fun _ => Ok (Fin 3, Fin 4)) modern (Some ex_hourly) (Some (Fin 0)) (Some (Fin 0)) (Some (Fin 0))
    (Some ex_daily) (Some [(100 * us_day, Fin 12)]) how init_glob = (st', None) /\
  entry_of 5 (g_angstroem st') = Some (Fin 1, Fin 2) /\
  entry_of 5 (g_bristcamp st') = Some (if String.eqb how "monthly" then (lit 75 2, lit 24 1) else (Fin 3, Fin 4)).
Proof.
  intro HOW. assert (HH : hourly_index modern (f_index ex_daily) = Ok (hours_index 100 1)) by apply hourly_index_daily.
  rewrite (run_eq _ _ modern ex_hourly ex_daily [Fin 3] (hours_index 100 1) (Fin 0) (Fin 0) (Fin 0) (Some [(100 * us_day, Fin 12)]) how init_glob HOW eq_refl HH).
  cbv zeta. change (assoc "ssd" (f_cols ex_daily)) with (Some [Fin 3]). change (assoc "tmin" (f_cols ex_daily)) with (Some [Fin 1]). change (assoc "tmax" (f_cols ex_daily)) with (Some [Fin 9]).
  destruct HOW as [<-|[<-|[<-|[]]]]; cbn [String.eqb Ascii.eqb Bool.eqb andb month_groups fit_loop]; (eexists; split; [reflexivity|split; reflexivity]).
Qed.
