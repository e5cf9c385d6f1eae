(** Proofs about potential radiation. *)
From Coq Require Import String ZArith List Bool Reals Lia Lra.
From Verif Require Import Py Num Cal Series Trans UtilModel UtilModel2 Frame TempModel RadModel SpecBase SpecUtil SpecTemp SpecRad DaysProofs.
Import ListNotations.
Open Scope R_scope.

Lemma stamp_minute d h : (h < 24)%nat -> minute_of (stamp d h) = 0%Z.
Proof.
  intro H. unfold minute_of, tod, stamp. rewrite (Z.add_comm (d * us_day)%Z), Z.mod_add by (unfold us_day; lia).
  rewrite (Z.mod_small (Z.of_nat h * us_hour)%Z us_day) by (unfold us_day, us_hour, us_minute, us_second; lia). rewrite Z.mod_mul by (unfold us_hour; lia). reflexivity.
Qed.
Lemma solar_decline_ok doy : solar_decline doy = Fin (sun_decl doy).
Proof.
  unfold solar_decline, sun_decl, deg2rad, xpi. rewrite !lit_xr by lia. rewrite !nofZ_xr. cbn [Z.pow Z.pow_pos Pos.iter Z.mul Pos.mul Pos.add Pos.succ].
  repeat first [rewrite xmul_Fin | rewrite xsub_Fin | rewrite xcos_Fin | rewrite xdiv_Fin by lra].
  replace 23.43697 with (2343697 / 100000) by lra. replace 365.25 with (36525 / 100) by lra. reflexivity.
Qed.
Lemma hour_angle_ok h mi lon tz : hour_angle h mi (Fin lon) (Fin tz) = Fin (sun_hour_angle h mi lon tz).
Proof.
  unfold hour_angle, sun_hour_angle, xpi. rewrite !nofZ_xr, n1_xr.
  repeat first [rewrite xmul_Fin | rewrite xsub_Fin | rewrite xadd_Fin | rewrite xdiv_Fin by lra].
  f_equal. f_equal. f_equal. f_equal. f_equal. field.
Qed.
Lemma radius_ratio_ok doy : radius_ratio doy = Fin (sun_ratio doy).
Proof.
  unfold radius_ratio, sun_ratio, xpi. cbv zeta. rewrite !lit_xr by lia. rewrite !nofZ_xr. cbn [Z.pow Z.pow_pos Pos.iter Z.mul Pos.mul Pos.add Pos.succ].
  repeat first [rewrite xmul_Fin | rewrite xadd_Fin | rewrite xcos_Fin | rewrite xsin_Fin | rewrite xdiv_Fin by lra].
  replace (2 * PI * (IZR doy / (36525 / 100))) with (2 * PI * IZR doy / 365.25) by (replace 365.25 with (36525 / 100) by lra; field).
  set (b := 2 * PI * IZR doy / 365.25). reflexivity.
Qed.

Lemma Rsqr_bounds x m : 0 <= m -> x² <= m² -> - m <= x <= m.
Proof. intros M X. unfold Rsqr in X. split; nra. Qed.
Lemma combo_bound a b m x : 0 <= m -> a * a + b * b <= m * m -> - m <= a * cos x + b * sin x <= m.
Proof.
  intros Hm H. pose proof (sin2_cos2 x) as SC. unfold Rsqr in SC. apply Rsqr_bounds; [exact Hm|]. unfold Rsqr.
  set (c := cos x) in *. set (s := sin x) in *.
  apply Rle_trans with ((a * a + b * b) * (s * s + c * c)); [|rewrite SC; lra].
  pose proof (Rle_0_sqr (a * s - b * c)) as Q. unfold Rsqr in Q. nra.
Qed.
Lemma sun_ratio_bounds doy : 0.965 <= sun_ratio doy <= 1.0351.
Proof.
  unfold sun_ratio. cbv zeta. set (b := 2 * PI * IZR doy / 365.25).
  pose proof (combo_bound 0.034221 0.00128 0.03425 b) as B1. pose proof (combo_bound 0.000719 0.000077 0.00073 (2 * b)) as B2.
  specialize (B1 ltac:(lra) ltac:(lra)). specialize (B2 ltac:(lra) ltac:(lra)). lra.
Qed.

(** the horizontal components of the direction to the sun *)
Lemma sun_identity d p h :
  (cos d * sin h)² + (sin d * sin p + cos d * cos p * cos h)² + (sin d * cos p - cos d * sin p * cos h)² = 1.
Proof.
  pose proof (sin2_cos2 d) as D. pose proof (sin2_cos2 p) as P. pose proof (sin2_cos2 h) as H. unfold Rsqr in *.
  replace (cos d * sin h * (cos d * sin h) + (sin d * sin p + cos d * cos p * cos h) * (sin d * sin p + cos d * cos p * cos h) +
           (sin d * cos p - cos d * sin p * cos h) * (sin d * cos p - cos d * sin p * cos h))
    with (cos d * cos d * (sin h * sin h) + (sin d * sin d + cos d * cos d * (cos h * cos h)) * (sin p * sin p + cos p * cos p)) by ring.
  rewrite P. replace (cos h * cos h) with (1 - sin h * sin h) by lra. lra.
Qed.
Lemma east_bound doy h mi lon lat tz :
  (cos (sun_decl doy) * sin (sun_hour_angle h mi lon tz))² <= 1 - (sun_height doy h mi lon lat tz)².
Proof.
  pose proof (sun_identity (sun_decl doy) (lat * (PI / 180)) (sun_hour_angle h mi lon tz)) as I. unfold sun_height.
  set (A := cos (sun_decl doy) * sin (sun_hour_angle h mi lon tz)) in *.
  match type of I with _ + _ + ?c² = _ => pose proof (Rle_0_sqr c) end. lra.
Qed.
Lemma height_bound doy h mi lon lat tz : -1 <= sun_height doy h mi lon lat tz <= 1.
Proof.
  pose proof (east_bound doy h mi lon lat tz) as E. pose proof (Rle_0_sqr (cos (sun_decl doy) * sin (sun_hour_angle h mi lon tz))).
  apply Rsqr_bounds; [lra|]. unfold Rsqr at 2. lra.
Qed.
Lemma day_height_bound doy h mi lon lat tz : 0 <= day_height (sun_height doy h mi lon lat tz) <= 1.
Proof. pose proof (height_bound doy h mi lon lat tz). unfold day_height, Rmax. destruct (Rle_dec _ _); lra. Qed.
Lemma east_bound' doy h mi lon lat tz :
  (cos (sun_decl doy) * sin (sun_hour_angle h mi lon tz))² <= 1 - (day_height (sun_height doy h mi lon lat tz))².
Proof.
  pose proof (east_bound doy h mi lon lat tz) as E. unfold day_height, Rmax. destruct (Rle_dec _ _); [exact E|].
  pose proof (Rle_0_sqr (sun_height doy h mi lon lat tz)). unfold Rsqr at 2. lra.
Qed.

Lemma clip0_Fin r : clip0 (Fin r) = Fin (Rmax 0 r).
Proof.
  unfold clip0. rewrite n0_xr, xltb_Fin. unfold Rmax. destruct (Rltb_spec r 0), (Rle_dec 0 r); try reflexivity; exfalso; lra.
Qed.

Lemma xasin_Fin r : -1 <= r <= 1 -> xasin (Fin r) = Fin (asin r).
Proof. intros [A B]. cbn. destruct (Rleb_spec (-1) r); [|lra]. destruct (Rleb_spec r 1); [reflexivity|lra]. Qed.

Theorem pot_value doy h mi lon lat tz slope az cl :
  let H := sun_height doy h mi lon lat tz in H < 1 ->
  potential_radiation1 doy h mi (Fin lon) (Fin lat) (Fin tz) (Fin slope) (Fin az) (Fin cl)
  = (Fin (Rmax 0 (1367 * sun_ratio doy * ((0.6 + 0.2 * day_height H) * (1 - cl)) * incidence slope az H (sun_azimuth doy h mi lon lat tz))),
     Fin (1367 * sun_ratio doy * ((0.3 + 0.1 * day_height H) * cl) * day_height H)).
Proof.
  intros H HH. unfold potential_radiation1. cbv zeta. rewrite solar_decline_ok, hour_angle_ok, radius_ratio_ok, !lit_xr by lia.
  rewrite !nofZ_xr, !n1_xr, !deg2rad_Fin. rewrite !xsin_Fin, !xcos_Fin, !xmul_Fin, !xadd_Fin.
  change (sin (sun_decl doy) * sin (lat * (PI / 180)) + cos (sun_decl doy) * cos (lat * (PI / 180)) * cos (sun_hour_angle h mi lon tz)) with H.
  rewrite !clip0_Fin. fold (day_height H).
  pose proof (day_height_bound doy h mi lon lat tz) as DB. fold H in DB.
  rewrite xacos_Fin by lra. rewrite xsin_Fin.
  pose proof (east_bound' doy h mi lon lat tz) as EB. fold H in EB.
  assert (LT : (day_height H) < 1) by (unfold day_height, Rmax; destruct (Rle_dec _ _); lra).
  assert (SQ : 0 < 1 - (day_height H)²) by (unfold Rsqr; nra).
  assert (SI : sin (acos (day_height H)) = sqrt (1 - (day_height H)²)) by (apply sin_acos; lra).
  rewrite SI. pose proof (sqrt_lt_R0 _ SQ) as SP.
  rewrite xdiv_Fin by lra. rewrite xasin_Fin.
  - fold (sun_azimuth doy h mi lon lat tz). unfold sun_azimuth. fold H.
    rewrite !xsub_Fin, !xcos_Fin, !xmul_Fin, !xadd_Fin, !xmul_Fin, clip0_Fin.
    change (10 ^ 1)%Z with 10%Z. unfold incidence.
    replace (6 / 10) with 0.6 by lra. replace (2 / 10) with 0.2 by lra. replace (3 / 10) with 0.3 by lra. replace (1 / 10) with 0.1 by lra. reflexivity.
  - apply Rsqr_bounds; [lra|]. unfold Rdiv. rewrite Rsqr_mult, Rsqr_inv'. rewrite Rsqr_sqrt by lra.
    apply Rmult_le_reg_r with (1 - (day_height H)²); [exact SQ|]. rewrite Rmult_assoc, Rinv_l by lra. rewrite Rsqr_1. lra.
Qed.

(** the sun exactly in the zenith *)
Theorem pot_zenith doy h mi lon lat tz slope az cl : sun_height doy h mi lon lat tz = 1 ->
  fst (potential_radiation1 doy h mi (Fin lon) (Fin lat) (Fin tz) (Fin slope) (Fin az) (Fin cl)) = NaN.
Proof.
  intro HH. unfold potential_radiation1. cbv zeta. rewrite solar_decline_ok, hour_angle_ok, radius_ratio_ok, !lit_xr by lia.
  rewrite !nofZ_xr, !n1_xr, !deg2rad_Fin. rewrite !xsin_Fin, !xcos_Fin, !xmul_Fin, !xadd_Fin.
  pose proof (east_bound doy h mi lon lat tz) as EB. rewrite HH in EB.
  unfold sun_height in HH. rewrite HH. rewrite clip0_Fin. replace (Rmax 0 1) with 1 by (unfold Rmax; destruct (Rle_dec 0 1); lra).
  rewrite xacos_Fin by lra. rewrite acos_1, xsin_Fin, sin_0.
  assert (Z0 : cos (sun_decl doy) * sin (sun_hour_angle h mi lon tz) = 0).
  { apply Rsqr_0_uniq. pose proof (Rle_0_sqr (cos (sun_decl doy) * sin (sun_hour_angle h mi lon tz))). unfold Rsqr at 2 in EB. lra. }
  rewrite Z0.
  assert (DZ : (Fin 0 / Fin 0)%num = NaN) by (cbn; destruct (Reqb_spec 0 0); [reflexivity|contradiction]).
  rewrite DZ. cbn [fst]. cbn [xasin n_sub Num_xr xsub xcos]. cbn [n_mul n_add xmul xadd]. cbn. reflexivity.
Qed.

(** flat terrain *)
Theorem pot_flat doy h mi lon lat tz az cl :
  let H := sun_height doy h mi lon lat tz in H < 1 ->
  potential_radiation1 doy h mi (Fin lon) (Fin lat) (Fin tz) (Fin 0) (Fin az) (Fin cl)
  = (Fin (Rmax 0 (1367 * sun_ratio doy * ((0.6 + 0.2 * day_height H) * (1 - cl)) * day_height H)),
     Fin (1367 * sun_ratio doy * ((0.3 + 0.1 * day_height H) * cl) * day_height H)).
Proof.
  intros H HH. rewrite (pot_value doy h mi lon lat tz 0 az cl HH). fold H. unfold incidence. rewrite cos_0, sin_0.
  do 3 f_equal. f_equal. ring.
Qed.
