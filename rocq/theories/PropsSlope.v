(** Property C135: potential radiation on slopes in doubles. *)
From Coq Require Import ZArith List Bool Lia Reals Lra Floats.
From Flocq Require Import Core.
From Verif Require Import Num Cal Series Trans RadModel SpecBase SpecUtil SpecRad F64 CascadeFloat CascadeRound FiveRound CourseRound
  SpecSineRound ErrCalc SineRound PropsSineRound PotAnyModel SpecPotAny RadAny RadPot CalProofs PropsRad PotAny PropsPotAny
  SpecSunAny SunAny PropsRadAny PropsSunAny SpecNumber PropsNumber SpecSlope.
Import ListNotations.
Open Scope R_scope.

Lemma asin_small x : Rabs (asin x) <= 1.5708.
Proof. pose proof (asin_bound x). pose proof pi_bounds. apply Rabs_le. lra. Qed.
Lemma good_usable asinf : good_arcsine asinf -> usable_arcsine asinf.
Proof.
  intros G x F B. destruct (G x F B) as [FA EA]. split; [exact FA|]. pose proof (asin_small (fval x)).
  replace (fval (asinf x)) with ((fval (asinf x) - asin (fval x)) + asin (fval x)) by ring. eapply Rle_trans; [apply Rabs_triang|]. lra.
Qed.
Lemma clear_off doy h mi lon lat tz : clear_of_east_west doy h mi lon lat tz -> off_east_west doy h mi lon lat tz.
Proof. intros [H|H]; [left|right]; lra. Qed.
Lemma clear_room doy h mi lon lat tz : clear_of_east_west doy h mi lon lat tz ->
  Rsqr (day_height (sun_height doy h mi lon lat tz)) + Rsqr (cos (sun_decl doy) * sin (sun_hour_angle h mi lon tz)) <= 1 - 1 / 10 ^ 6.
Proof.
  intro O. pose proof (sun_unit doy h mi lon lat tz) as U. unfold clear_of_east_west in O. unfold day_height.
  set (H := sun_height doy h mi lon lat tz) in *. set (n := sun_north doy h mi lon lat tz) in *. set (q := cos (sun_decl doy) * sin (sun_hour_angle h mi lon tz)) in *. clearbody H n q.
  assert (N0 : 0 <= Rsqr n) by apply Rle_0_sqr. destruct O as [N|N].
  - assert (N1 : 1 / 10 ^ 6 <= Rsqr n) by (rewrite Rsqr_abs; unfold Rsqr; pose proof (Rabs_pos n); nra).
    assert (K : Rsqr (Rmax 0 H) <= Rsqr H) by (unfold Rmax; destruct (Rle_dec 0 H); unfold Rsqr; nra). lra.
  - rewrite Rmax_left by lra. assert (1 / 10 ^ 6 <= Rsqr H) by (unfold Rsqr; nra). rewrite Rsqr_0. lra.
Qed.

(** turning the horizontal component [s] of a direction whose eastward component is [q] *)
Lemma turned s q a : 0 < s -> Rabs q <= s -> s * cos (asin (q / s) - a) = R_sqrt.sqrt (s * s - q * q) * cos a + q * sin a.
Proof.
  intros S0 QS. apply Flocq.Core.Raux.Rabs_le_inv in QS.
  assert (B : -1 <= q / s <= 1).
  { split; apply Rmult_le_reg_r with s; try exact S0; unfold Rdiv; rewrite Rmult_assoc, Rinv_l by lra; lra. }
  rewrite cos_minus, cos_asin, sin_asin by exact B.
  assert (E : s * R_sqrt.sqrt (1 - Rsqr (q / s)) = R_sqrt.sqrt (s * s - q * q)).
  { rewrite <- (R_sqrt.sqrt_square s) at 1 by lra. rewrite <- R_sqrt.sqrt_mult_alt by nra. f_equal. unfold Rsqr. field. lra. }
  rewrite Rmult_plus_distr_l, <- Rmult_assoc, E. f_equal. rewrite <- Rmult_assoc. f_equal. field. lra.
Qed.
Lemma sqrt_close a b d m : 0 < m -> m * m <= a -> m * m <= b -> Rabs (a - b) <= d -> Rabs (R_sqrt.sqrt a - R_sqrt.sqrt b) <= d / m.
Proof.
  intros M A B D. pose proof (R_sqrt.sqrt_le_1_alt _ _ A) as SA. pose proof (R_sqrt.sqrt_le_1_alt _ _ B) as SB. rewrite R_sqrt.sqrt_square in SA, SB by lra.
  assert (EA : R_sqrt.sqrt a * R_sqrt.sqrt a = a) by (apply R_sqrt.sqrt_sqrt; nra). assert (EB : R_sqrt.sqrt b * R_sqrt.sqrt b = b) by (apply R_sqrt.sqrt_sqrt; nra).
  set (x := R_sqrt.sqrt a) in *. set (y := R_sqrt.sqrt b) in *. clearbody x y. subst a b.
  apply Rmult_le_reg_r with m; [exact M|]. unfold Rdiv. rewrite Rmult_assoc, Rinv_l, Rmult_1_r by lra.
  eapply Rle_trans; [|exact D]. replace (x * x - y * y) with ((x - y) * (x + y)) by ring. rewrite Rabs_mult.
  apply Rmult_le_compat_l; [apply Rabs_pos|]. rewrite Rabs_pos_eq; lra.
Qed.
(** components that differ little *)
Lemma turned_close s q s' q' a : 0 < s <= 1 -> Rabs q <= s -> 0 < s' <= 1 -> Rabs q' <= s' ->
  1 / 10 ^ 6 <= s * s - q * q -> Rabs (s * s - s' * s') <= 5 / 10 ^ 13 -> Rabs (q - q') <= 11 / 10 ^ 14 ->
  Rabs (s' * cos (asin (q' / s') - a) - s * cos (asin (q / s) - a)) <= 8 / 10 ^ 10.
Proof.
  intros S0 QS S0' QS' R ES EQ. rewrite !turned by (lra || assumption).
  apply Flocq.Core.Raux.Rabs_le_inv in QS, QS'. 
  assert (QQ : Rabs (q * q - q' * q') <= 221 / 10 ^ 15).
  { replace (q * q - q' * q') with ((q - q') * (q + q')) by ring. rewrite Rabs_mult. assert (Rabs (q + q') <= 2) by (apply Rabs_le; lra). pose proof (Rabs_pos (q - q')). pose proof (Rabs_pos (q + q')). nra. }
  assert (D : Rabs ((s' * s' - q' * q') - (s * s - q * q)) <= 73 / 10 ^ 14).
  { apply Flocq.Core.Raux.Rabs_le_inv in ES, QQ. apply Rabs_le. lra. }
  assert (SQ : Rabs (R_sqrt.sqrt (s' * s' - q' * q') - R_sqrt.sqrt (s * s - q * q)) <= 73 / 10 ^ 14 / (99 / 10 ^ 5)).
  { apply sqrt_close; [lra|apply Flocq.Core.Raux.Rabs_le_inv in D; lra|lra|exact D]. }
  set (x := R_sqrt.sqrt (s' * s' - q' * q')) in *. set (y := R_sqrt.sqrt (s * s - q * q)) in *. clearbody x y.
  replace (x * cos a + q' * sin a - (y * cos a + q * sin a)) with ((x - y) * cos a - (q - q') * sin a) by ring.
  unfold Rminus at 1. eapply Rle_trans; [apply Rabs_triang|]. rewrite Rabs_Ropp, !Rabs_mult.
  assert (C : Rabs (cos a) <= 1) by (apply Rabs_le, COS_bound). assert (S : Rabs (sin a) <= 1) by (apply Rabs_le, SIN_bound).
  pose proof (Rabs_pos (x - y)). pose proof (Rabs_pos (q - q')). pose proof (Rabs_pos (cos a)). pose proof (Rabs_pos (sin a)).
  apply Rle_trans with (73 / 10 ^ 14 / (99 / 10 ^ 5) * 1 + 11 / 10 ^ 14 * 1); [apply Rplus_le_compat; apply Rmult_le_compat; assumption|lra].
Qed.

Section Slope.
  Variables sinf cosf asinf acosf : float -> float.
  Hypothesis GS : good_sine sinf.
  Hypothesis GC : good_cosine cosf.
  Hypothesis GA : good_arccosine acosf.
  Hypothesis GI : good_arcsine asinf.
  Variables doy h mi : Z.
  Variables lon lat tz az : float.
  Hypothesis HD : (1 <= doy <= 366)%Z.
  Hypothesis HH : (0 <= h < 24)%Z.
  Hypothesis HM : (0 <= mi < 60)%Z.
  Hypothesis HLo : degrees lon.
  Hypothesis HLa : degrees lat.
  Hypothesis HZ : zone tz.
  Hypothesis HA : PrimFloat.is_finite az = true /\ Rabs (fval az) <= 900.
  Hypothesis OFF : clear_of_east_west doy h mi (fval lon) (fval lat) (fval tz).
  Notation c := (height_any np_pi sinf cosf doy h mi lon lat tz).
  Notation facing := (facing_any np_pi sinf cosf asinf acosf doy h mi lon lat tz az).
  Notation H := (sun_height doy h mi (fval lon) (fval lat) (fval tz)).
  Notation mu := (sun_azimuth doy h mi (fval lon) (fval lat) (fval tz)).

  (** the horizontal component towards [az]: what the computed factors stand for *)
  Lemma facing_near : exists r, apb facing r (2 / 10 ^ 13) 1 /\ fb (sinf (acosf c)) 1 /\
    Rabs (fval (sinf (acosf c)) * r - R_sqrt.sqrt (1 - Rsqr (day_height H)) * cos (mu - fval az)) <= 8 / 10 ^ 10.
  Proof.
    pose proof (clear_room _ _ _ _ _ _ OFF) as RM.
    destruct (cheight sinf cosf GS GC doy h mi lon lat tz HD HH HM HLo HLa HZ) as (Fc & C0 & EC).
    destruct (zenith_sine sinf cosf acosf GS GC GA doy h mi lon lat tz HD HH HM HLo HLa HZ (clear_off _ _ _ _ _ _ OFF)) as (C1 & Fz & QS & SP & FQ).
    pose proof (decline_near cosf GC doy HD) as DN. pose proof (hour_angle_near h mi lon tz HH HM HLo HZ) as HN.
    assert (A1 : apb (cosf (decline_any np_pi cosf doy)) (cos (sun_decl doy)) (11 / 10 ^ 15) 1) by (eapply (b_cos _ _ _ (1 / 10 ^ 14) (42 / 100)); [exact GC|exact DN|lra..]).
    assert (A3 : apb (sinf (hour_angle_any np_pi h mi lon tz)) (sin (sun_hour_angle h mi (fval lon) (fval tz))) (81 / 10 ^ 15) 1) by (eapply (b_sin _ _ _ (8 / 10 ^ 14) 60); [exact GS|exact HN|lra..]).
    assert (Q : apb (cosf (decline_any np_pi cosf doy) * sinf (hour_angle_any np_pi h mi lon tz))%num (cos (sun_decl doy) * sin (sun_hour_angle h mi (fval lon) (fval tz))) (1 / 10 ^ 13) 1)
      by (eapply (b_mul _ _ _ _ (11 / 10 ^ 15) (81 / 10 ^ 15) 1 1); [exact A1|exact A3|lra..]).
    unfold facing_any, sun_azimuth. cbv zeta.
    destruct Q as [[_ EQ] QB]. set (q' := (cosf (decline_any np_pi cosf doy) * sinf (hour_angle_any np_pi h mi lon tz))%num) in *.
    set (q := cos (sun_decl doy) * sin (sun_hour_angle h mi (fval lon) (fval tz))) in *.
    pose proof (day_height_bound doy h mi (fval lon) (fval lat) (fval tz)) as KB. set (k := day_height H) in *. clearbody k q q'.
    (* the sine of the zenith angle *)
    destruct (GA c (proj1 (ffin_spec _) Fc)) as (FA & [P0 P1] & EA); [apply Rabs_le; lra|].
    pose proof (pi_bounds) as PB. destruct np_pi_bounds as [_ NP].
    destruct (GS (acosf c) FA) as (FS & S1 & ES); [apply Rabs_le; lra|].
    pose proof (sin_lipschitz (fval (acosf c)) (acos (fval c))) as SL. rewrite (sin_acos (fval c)) in SL by lra.
    set (c0 := fval c) in *. set (z := sinf (acosf c)) in *. set (s' := fval z) in *. set (s0 := R_sqrt.sqrt (1 - Rsqr c0)) in *.
    assert (SS0 : s0 * s0 = 1 - c0 * c0) by (unfold s0; apply R_sqrt.sqrt_sqrt; unfold Rsqr; nra).
    assert (S00 : 0 <= s0) by apply R_sqrt.sqrt_pos. clearbody s0.
    set (s := R_sqrt.sqrt (1 - Rsqr k)). unfold Rsqr in RM.
    assert (SS : s * s = 1 - k * k) by (unfold s; apply R_sqrt.sqrt_sqrt; unfold Rsqr; nra).
    assert (S0 : 0 <= s) by apply R_sqrt.sqrt_pos. fold s. clearbody s.
    assert (SP' : 0 < s <= 1) by (split; nra).
    assert (QS' : Rabs q <= s) by (apply Rabs_le; split; nra).
    assert (S01 : s0 <= 1) by nra.
    assert (E1 : Rabs (s' - s0) <= 3 / 10 ^ 15) by (apply Flocq.Core.Raux.Rabs_le_inv in ES, SL; apply Rabs_le; lra).
    apply Flocq.Core.Raux.Rabs_le_inv in E1, EC.
    assert (ESS : Rabs (s * s - s' * s') <= 5 / 10 ^ 13).
    { assert (Rabs (s0 * s0 - s' * s') <= 7 / 10 ^ 15) by (apply Rabs_le; split; nra).
      assert (Rabs (s * s - s0 * s0) <= 45 / 10 ^ 14) by (rewrite SS, SS0; apply Rabs_le; split; nra).
      replace (s * s - s' * s') with ((s * s - s0 * s0) + (s0 * s0 - s' * s')) by ring. eapply Rle_trans; [apply Rabs_triang|]. lra. }
    (* the argument of the arc sine *)
    assert (B : Rabs (fval q' / s') <= 1).
    { unfold Rdiv. rewrite Rabs_mult, (Rabs_pos_eq (/ s')) by (left; apply Rinv_0_lt_compat; lra).
      apply Rmult_le_reg_r with s'; [lra|]. rewrite Rmult_assoc, Rinv_l by lra. lra. }
    pose proof (rnd_err (fval q' / s')) as RE. pose proof B as B'. apply Flocq.Core.Raux.Rabs_le_inv in B.
    destruct (fdiv_correct q' z FQ) as [E F]; [fold s'; lra|fold s'; apply (mid_small _ (-1)%float 1%float); rewrite ?fv_m1, ?fv_1; lra|]. fold s' in E.
    assert (BR : Rabs (fval (q' / z)%float) <= 1).
    { rewrite E. apply Rabs_le. split; [rewrite <- fv_m1 at 1; apply rnd_ge_fval; rewrite fv_m1; lra|rewrite <- fv_1 at 1; apply rnd_le_fval; rewrite fv_1; lra]. }
    rewrite <- E in RE. destruct (GI (q' / z)%float (proj1 (ffin_spec _) F) BR) as [FM EM]. change (q' / z)%num with (q' / z)%float.
    set (x := (q' / z)%float) in *. set (x0 := fval x) in *. clearbody x.
    exists (cos (asin x0 - fval az)). split; [|split; [split; [exact Fz|apply Rabs_le; fold s'; lra]|]].
    - assert (M : apb (asinf x) (asin x0) (1 / 10 ^ 15) 1.5708) by (split; [split; [apply ffin_spec; exact FM|exact EM]|apply asin_small]).
      eapply (b_cos _ _ _ (15 / 10 ^ 14) 902); [exact GC|eapply (b_sub _ _ _ _ (1 / 10 ^ 15) 0 1.5708 900); [exact M|apply b_exact; apply HA|lra..]|lra..].
    - replace x0 with (s' * x0 / s') by (field; lra). apply turned_close; try assumption; try lra.
      + rewrite Rabs_mult, (Rabs_pos_eq s') by lra. pose proof (Rabs_pos x0). nra.
      + assert (XE : Rabs (fval q' - s' * x0) <= 3 / 10 ^ 15).
        { replace (fval q' - s' * x0) with (- (s' * (x0 - fval q' / s'))) by (field; lra). rewrite Rabs_Ropp, Rabs_mult, (Rabs_pos_eq s') by lra.
          pose proof eta_tiny as ET. pose proof eta64_pos. pose proof u64_tiny as U. pose proof (Rabs_pos (fval q' / s')) as Pq. set (w := Rabs (fval q' / s')) in *.
          assert (u64 * w <= 12 / 10 ^ 17 * 1) by (apply Rmult_le_compat; lra). pose proof (Rabs_pos (x0 - fval q' / s')). nra. }
        apply Flocq.Core.Raux.Rabs_le_inv in XE, EQ. apply Rabs_le. lra.
  Qed.

  Lemma slope_near slope cl : PrimFloat.is_finite slope = true /\ Rabs (fval slope) <= 1000 -> cloudiness cl ->
    let p := pot_any np_pi sinf cosf asinf acosf doy h mi lon lat tz slope az cl in
    within (1 / 10 ^ 6) (fst p) (direct_on_slope doy h mi (fval lon) (fval lat) (fval tz) (fval slope) (fval az) (fval cl)) /\
    within (1 / 10 ^ 9) (snd p) (diffuse_on_slope doy h mi (fval lon) (fval lat) (fval tz) (fval cl)) /\
    within (2 / 10 ^ 6) (fst p + snd p)%float (direct_on_slope doy h mi (fval lon) (fval lat) (fval tz) (fval slope) (fval az) (fval cl)
      + diffuse_on_slope doy h mi (fval lon) (fval lat) (fval tz) (fval cl)).
  Proof.
    intros [FSl BSl] HC p.
    pose proof (diffuse_near sinf cosf asinf acosf GC GS doy h mi lon lat tz az cl HD HH HM HLo HLa HZ HC) as DF.
    change (snd (pot_any np_pi sinf cosf asinf acosf doy h mi lon lat tz 0%float az cl)) with (snd p) in DF.
    change (diffuse_R doy h mi (fval lon) (fval lat) (fval tz) (fval cl)) with (diffuse_on_slope doy h mi (fval lon) (fval lat) (fval tz) (fval cl)) in DF.
    pose proof (sc_near sinf cosf GC GS doy HD) as SC.
    pose proof (t_direct_near sinf cosf GC GS doy h mi lon lat tz cl HD HH HM HLo HLa HZ HC) as TD.
    destruct (height_near sinf cosf GC GS doy h mi lon lat tz HD HH HM HLo HLa HZ) as (_ & _ & CN).
    destruct facing_near as (r & FN & ZN & TN).
    set (D := direct_on_slope doy h mi (fval lon) (fval lat) (fval tz) (fval slope) (fval az) (fval cl)).
    assert (DD : apb (fst p) D (92 / 10 ^ 8) 2400).
    { unfold p, pot_any. cbv zeta. cbn [fst].
      set (f := facing) in *. set (z := sinf (acosf c)) in *. set (cc := c) in *. set (t1 := ((lit 6 1 + lit 2 1 * cc) * (n1 - cl))%num) in *. set (sc := (n_ofZ 1367 * ratio_any np_pi sinf cosf doy)%num) in *.
      unfold D, direct_on_slope, incidence. cbv zeta.
      set (k := day_height H) in *. set (m := mu) in *. set (T1 := (0.6 + 0.2 * k) * (1 - fval cl)) in *. set (R1 := 1367 * sun_ratio doy) in *.
      clearbody f z cc t1 sc k m T1 R1.
      assert (CS : apb (cosf slope) (cos (fval slope)) (1 / 10 ^ 15) 1).
      { destruct (GC slope FSl BSl) as (FC & _ & E). split; [split; [apply ffin_spec; exact FC|exact E]|apply Rabs_le, COS_bound]. }
      assert (SS : apb (sinf slope) (sin (fval slope)) (1 / 10 ^ 15) 1).
      { destruct (GS slope FSl BSl) as (FC & _ & E). split; [split; [apply ffin_spec; exact FC|exact E]|apply Rabs_le, SIN_bound]. }
      assert (X1 : apb (cosf slope * cc)%num (cos (fval slope) * k) (3 / 10 ^ 13) 1) by (eapply (b_mul _ _ _ _ (1 / 10 ^ 15) (2 / 10 ^ 13) 1 1); [exact CS|exact CN|lra..]).
      assert (X2 : apb (sinf slope * z)%num (sin (fval slope) * fval z) (2 / 10 ^ 15) 1) by (eapply (b_mul _ _ _ _ (1 / 10 ^ 15) 0 1 1); [exact SS|apply fb_apb; exact ZN|lra..]).
      assert (X3 : apb (sinf slope * z * f)%num (sin (fval slope) * fval z * r) (3 / 10 ^ 13) 1) by (eapply (b_mul _ _ _ _ (2 / 10 ^ 15) (2 / 10 ^ 13) 1 1); [exact X2|exact FN|lra..]).
      assert (X4 : apb (cosf slope * cc + sinf slope * z * f)%num (cos (fval slope) * k + sin (fval slope) * fval z * r) (1 / 10 ^ 12) 2) by (eapply (b_add _ _ _ _ (3 / 10 ^ 13) (3 / 10 ^ 13) 1 1); [exact X1|exact X3|lra..]).
      set (I := cos (fval slope) * k + sin (fval slope) * R_sqrt.sqrt (1 - Rsqr k) * cos (m - fval az)).
      assert (X5 : apb (cosf slope * cc + sinf slope * z * f)%num I (78 / 10 ^ 11 + 23 / 10 ^ 12) 2.01).
      { assert (DI : Rabs ((cos (fval slope) * k + sin (fval slope) * fval z * r) - I) <= 8 / 10 ^ 10).
        { unfold I. replace (_ - _) with (sin (fval slope) * (fval z * r - R_sqrt.sqrt (1 - Rsqr k) * cos (m - fval az))) by ring. rewrite Rabs_mult.
          pose proof (SIN_bound (fval slope)) as SB. assert (Rabs (sin (fval slope)) <= 1) by (apply Rabs_le; exact SB). pose proof (Rabs_pos (fval z * r - R_sqrt.sqrt (1 - Rsqr k) * cos (m - fval az))). pose proof (Rabs_pos (sin (fval slope))). nra. }
        destruct X4 as [[F4 E4] B4]. clearbody I. apply Flocq.Core.Raux.Rabs_le_inv in DI, E4, B4. split; [split; [exact F4|apply Rabs_le; lra]|apply Rabs_le; lra]. }
      set (ci := (cosf slope * cc + sinf slope * z * f)%num) in *. clearbody I ci.
      assert (Y1 : apb (sc * t1)%num (R1 * T1) (1 / 10 ^ 10) 1133) by (eapply (b_mul _ _ _ _ (8 / 10 ^ 12) (5 / 10 ^ 14) 1416 0.8); [exact SC|exact TD|lra..]).
      assert (Y2 : apb (sc * t1 * ci)%num (R1 * T1 * I) (92 / 10 ^ 8) 2400) by (eapply (b_mul _ _ _ _ (1 / 10 ^ 10) (78 / 10 ^ 11 + 23 / 10 ^ 12) 1133 2.01); [exact Y1|exact X5|lra..]).
      destruct Y2 as [[FY EY] BY]. destruct (clip_val _ FY) as [CF CV]. split; [split; [exact CF|]|].
      - rewrite CV. eapply Rle_trans; [apply Rmax0_lip|exact EY].
      - unfold Rmax. destruct (Rle_dec 0 (R1 * T1 * I)); [exact BY|rewrite Rabs_R0; lra]. }
    assert (W : forall x v e e' A, apb x v e A -> e <= e' -> within e' x v).
    { intros x v e e' A [[F E] _] L. split; [apply ffin_spec; exact F|lra]. }
    split; [apply (W _ _ _ _ _ DD); lra|]. split; [apply (W _ _ _ _ _ DF); lra|].
    eapply W; [exact (b_add _ _ _ _ (92 / 10 ^ 8) (2 / 10 ^ 10) 2400 567 (1 / 10 ^ 6) 2967 DD DF ltac:(lra) ltac:(lra) ltac:(lra))|lra].
  Qed.
End Slope.

(** every slope and azimuth, the sun well off east and west: next to the exact values *)
Theorem C135_slope sinf cosf asinf acosf doy h mi lon lat tz slope az cl :
  good_sine sinf -> good_cosine cosf -> good_arccosine acosf -> good_arcsine asinf ->
  (1 <= doy <= 366)%Z -> (0 <= h < 24)%Z -> (0 <= mi < 60)%Z -> degrees lon -> degrees lat -> zone tz ->
  PrimFloat.is_finite slope = true /\ Rabs (fval slope) <= 1000 -> PrimFloat.is_finite az = true /\ Rabs (fval az) <= 900 -> cloudiness cl ->
  clear_of_east_west doy h mi (fval lon) (fval lat) (fval tz) ->
  let p := pot_any np_pi sinf cosf asinf acosf doy h mi lon lat tz slope az cl in
  let direct := direct_on_slope doy h mi (fval lon) (fval lat) (fval tz) (fval slope) (fval az) (fval cl) in
  let diffuse := diffuse_on_slope doy h mi (fval lon) (fval lat) (fval tz) (fval cl) in
  within (1 / 10 ^ 6) (fst p) direct /\ within (1 / 10 ^ 9) (snd p) diffuse /\ within (2 / 10 ^ 6) (fst p + snd p)%float (direct + diffuse).
Proof. intros GS GC GA GI HD HH HM HLo HLa HZ HS HA HC OFF. apply slope_near; assumption. Qed.
Print Assumptions C135_slope.

(** the series against the one in exact arithmetic *)
Theorem C135_series sinf cosf asinf acosf dates lon lat tz slope az cl t v :
  good_sine sinf -> good_cosine cosf -> good_arccosine acosf -> good_arcsine asinf -> degrees lon -> degrees lat -> zone tz ->
  PrimFloat.is_finite slope = true /\ Rabs (fval slope) <= 1000 -> PrimFloat.is_finite az = true /\ Rabs (fval az) <= 900 -> cloudiness cl ->
  entry_of t (potential_any np_pi sinf cosf asinf acosf dates lon lat tz slope az cl) = Some v ->
  clear_of_east_west (doy_of_day (date_of t)) (hour_of t) (minute_of t) (fval lon) (fval lat) (fval tz) ->
  exists r, entry_of t (potential_radiation dates (Fin (fval lon)) (Fin (fval lat)) (Fin (fval tz)) (Fin (fval slope)) (Fin (fval az)) (Fin (fval cl))) = Some (Fin r) /\
    within (2 / 10 ^ 6) v r.
Proof.
  intros GS GC GA GI HLo HLa HZ HS HA HC EV OFF.
  assert (HI : In t dates /\ v = (fst (pot_any np_pi sinf cosf asinf acosf (doy_of_day (date_of t)) (hour_of t) (minute_of t) lon lat tz slope az cl)
                                + snd (pot_any np_pi sinf cosf asinf acosf (doy_of_day (date_of t)) (hour_of t) (minute_of t) lon lat tz slope az cl))%float).
  { revert EV. unfold potential_any. induction dates as [|u l IH]; cbn [map entry_of In]; [discriminate|].
    destruct (Z.eqb_spec u t) as [->|NE]; [intro E; injection E as <-; split; [left; reflexivity|reflexivity]|]. intro E. destruct (IH E). tauto. }
  destruct HI as [HI ->]. set (doy := doy_of_day (date_of t)) in *. pose proof (doy_range (date_of t)) as DR. fold doy in DR.
  destruct (time_range t) as [HR MR]. set (hh := hour_of t) in *. set (mm := minute_of t) in *.
  destruct (C135_slope sinf cosf asinf acosf doy hh mm lon lat tz slope az cl GS GC GA GI DR HR MR HLo HLa HZ HS HA HC OFF) as (_ & _ & D).
  exists (direct_on_slope doy hh mm (fval lon) (fval lat) (fval tz) (fval slope) (fval az) (fval cl) + diffuse_on_slope doy hh mm (fval lon) (fval lat) (fval tz) (fval cl)).
  split; [|exact D]. apply C43_sum. split; [exact HI|]. fold doy hh mm.
  assert (LT : sun_height doy hh mm (fval lon) (fval lat) (fval tz) < 1).
  { pose proof (clear_room _ _ _ _ _ _ OFF) as RM. unfold day_height in RM. pose proof (Rmax_r 0 (sun_height doy hh mm (fval lon) (fval lat) (fval tz))) as MX. pose proof (Rmax_l 0 (sun_height doy hh mm (fval lon) (fval lat) (fval tz))) as ML.
    set (K := Rmax 0 _) in *. match type of RM with _ + Rsqr ?y <= _ => pose proof (Rle_0_sqr y) end. unfold Rsqr in RM at 1. apply Rle_lt_trans with K; [exact MX|]. nra. }
  rewrite (pot_value doy hh mm (fval lon) (fval lat) (fval tz) (fval slope) (fval az) (fval cl) LT). cbn [fst snd]. rewrite xadd_Fin. reflexivity.
Qed.
Print Assumptions C135_series.

(** ** the hypotheses can be met *)
Example C135_arcsine_exists : good_arcsine rounded_asin.
Proof.
  intros x _ H. unfold rounded_asin. pose proof (asin_small (fval x)) as L. assert (V : fval 2%float = 2) by (unfold fval; vm_compute; lra).
  destruct (float_of_R_any (asin (fval x)) 2%float) as [FF VV]; [rewrite V; lra|]. split; [apply ffin_spec; exact FF|]. rewrite VV.
  pose proof (rnd_err (asin (fval x))) as R. pose proof eta_tiny as ET. unfold u64 in R. lra.
Qed.
(** noon of 1 July at 47.5 north, 15 east *)
Example C135_met : clear_of_east_west 182 12 0 15 47.5 1.
Proof.
  left. unfold sun_north. replace (sun_hour_angle 12 0 15 1) with 0 by (unfold sun_hour_angle; lra). rewrite cos_0.
  replace (sin (sun_decl 182) * cos (47.5 * (PI / 180)) - cos (sun_decl 182) * sin (47.5 * (PI / 180)) * 1) with (sin (sun_decl 182 - 47.5 * (PI / 180))) by (rewrite sin_minus; ring).
  pose proof pi_bounds as P. set (y := 47.5 * (PI / 180) - sun_decl 182). replace (sun_decl 182 - 47.5 * (PI / 180)) with (- y) by (unfold y; ring). rewrite sin_neg, Rabs_Ropp.
  assert (B : 0.1 <= y <= PI / 3).
  { unfold y, sun_decl. set (x := 2 * PI * (182 - 173) / 365.25). pose proof (COS_bound x) as CB. assert (C : 0.86 <= cos x) by (apply cos_small; unfold x; rewrite Rabs_pos_eq; lra). clearbody x. nra. }
  pose proof (sin_half y ltac:(lra)). rewrite Rabs_pos_eq; lra.
Qed.
