(** Property C134: when potential radiation computed in doubles is a number. *)
From Coq Require Import String ZArith List Bool Lia Reals Lra Floats.
From Flocq Require Import Core.
From Verif Require Import Py Num Cal Series Frame Trans RadModel SpecBase SpecUtil SpecRad SpecSky TimeProofs IndexProofs DaysProofs F64 CascadeFloat CascadeRound FiveRound CourseRound
  SpecSineRound ErrCalc SineRound PropsSineRound PotAnyModel SpecPotAny RadAny RadPot CalProofs PropsRad PotAny PropsPotAny
  SpecFiveRound SpecCourseRound SpecScaleRound ScaleModel ScaleRound PropsScaleRound PropsShift SpecClear PropsClear SpecSunAny SunAny PropsRadAny PropsSunAny SpecNumber.
Import ListNotations.
Open Scope R_scope.

(** the vector pointing to the sun has length 1 *)
Lemma sun_unit doy h mi lon lat tz :
  Rsqr (sun_height doy h mi lon lat tz) + Rsqr (sun_north doy h mi lon lat tz) + Rsqr (cos (sun_decl doy) * sin (sun_hour_angle h mi lon tz)) = 1.
Proof.
  unfold sun_height, sun_north. set (d := sun_decl doy). set (f := lat * (PI / 180)). set (a := sun_hour_angle h mi lon tz).
  pose proof (sin2_cos2 d) as D. pose proof (sin2_cos2 f) as F. pose proof (sin2_cos2 a) as A. unfold Rsqr in *.
  set (sd := sin d) in *. set (cd := cos d) in *. set (sf := sin f) in *. set (cf := cos f) in *. set (sa := sin a) in *. set (ca := cos a) in *. clearbody sd cd sf cf sa ca.
  replace ((sd * sf + cd * cf * ca) * (sd * sf + cd * cf * ca) + (sd * cf - cd * sf * ca) * (sd * cf - cd * sf * ca) + cd * sa * (cd * sa))
    with ((sd * sd + cd * cd * (ca * ca)) * (sf * sf + cf * cf) + cd * cd * (sa * sa)) by ring.
  rewrite F. replace ((sd * sd + cd * cd * (ca * ca)) * 1 + cd * cd * (sa * sa)) with (sd * sd + cd * cd * (sa * sa + ca * ca)) by ring. rewrite A. lra.
Qed.
Lemma room doy h mi lon lat tz : off_east_west doy h mi lon lat tz ->
  Rsqr (day_height (sun_height doy h mi lon lat tz)) + Rsqr (cos (sun_decl doy) * sin (sun_hour_angle h mi lon tz)) <= 1 - 1 / 10 ^ 10.
Proof.
  intro O. pose proof (sun_unit doy h mi lon lat tz) as U. unfold off_east_west in O. unfold day_height.
  set (H := sun_height doy h mi lon lat tz) in *. set (n := sun_north doy h mi lon lat tz) in *. set (q := cos (sun_decl doy) * sin (sun_hour_angle h mi lon tz)) in *. clearbody H n q.
  assert (N0 : 0 <= Rsqr n) by apply Rle_0_sqr. destruct O as [N|N].
  - assert (N1 : 1 / 10 ^ 10 <= Rsqr n) by (rewrite Rsqr_abs; unfold Rsqr; pose proof (Rabs_pos n); nra).
    assert (K : Rsqr (Rmax 0 H) <= Rsqr H) by (unfold Rmax; destruct (Rle_dec 0 H); unfold Rsqr; nra). lra.
  - rewrite Rmax_left by lra. assert (1 / 10 ^ 10 <= Rsqr H) by (unfold Rsqr; nra). rewrite Rsqr_0. lra.
Qed.

(** finite and at most [b] in absolute value *)
Definition fb (x : float) (b : R) : Prop := ffin x /\ Rabs (fval x) <= b.
Lemma fb_apb x b : fb x b -> apb x (fval x) 0 b.
Proof. intros [F B]. apply b_exact; [apply ffin_spec; exact F|exact B]. Qed.
Lemma apb_fb x r e A b : apb x r e A -> A + e <= b -> fb x b.
Proof. intros [X A1] L. pose proof (app_bound _ _ _ _ X A1). split; [apply X|lra]. Qed.
Lemma fb_mul x y a b c : fb x a -> fb y b -> a * b <= 10 ^ 5 -> a * b + 1 / 10 ^ 3 <= c -> fb (x * y)%num c.
Proof.
  intros X Y L C. pose proof (fb_apb _ _ X) as AX. pose proof (fb_apb _ _ Y) as AY.
  assert (P : 0 <= a * b) by (destruct X as [_ X], Y as [_ Y]; pose proof (Rabs_pos (fval x)); pose proof (Rabs_pos (fval y)); apply Rmult_le_pos; lra).
  eapply apb_fb; [apply (b_mul _ _ _ _ 0 0 a b (1 / 10 ^ 3) (a * b) AX AY); lra|lra].
Qed.
Lemma fb_add x y a b c : fb x a -> fb y b -> a + b <= 10 ^ 5 -> a + b + 1 / 10 ^ 3 <= c -> fb (x + y)%num c.
Proof.
  intros X Y L C. pose proof (fb_apb _ _ X) as AX. pose proof (fb_apb _ _ Y) as AY.
  eapply apb_fb; [apply (b_add _ _ _ _ 0 0 a b (1 / 10 ^ 3) (a + b) AX AY); lra|lra].
Qed.
Lemma fb_sub x y a b c : fb x a -> fb y b -> a + b <= 10 ^ 5 -> a + b + 1 / 10 ^ 3 <= c -> fb (x - y)%num c.
Proof.
  intros X Y L C. pose proof (fb_apb _ _ X) as AX. pose proof (fb_apb _ _ Y) as AY.
  eapply apb_fb; [apply (b_sub _ _ _ _ 0 0 a b (1 / 10 ^ 3) (a + b) AX AY); lra|lra].
Qed.
Lemma fb_clip x b : fb x b -> 0 <= b -> fb (no_less_than_0 x) b.
Proof. intros [F B] P. destruct (clip_val x F) as [CF CV]. split; [exact CF|]. rewrite CV. unfold Rmax. destruct (Rle_dec 0 (fval x)); [exact B|rewrite Rabs_R0; exact P]. Qed.

Section Number.
  Variables sinf cosf asinf acosf : float -> float.
  Hypothesis GS : good_sine sinf.
  Hypothesis GC : good_cosine cosf.
  Hypothesis GA : good_arccosine acosf.
  Hypothesis UA : usable_arcsine asinf.
  Variables doy h mi : Z.
  Variables lon lat tz az : float.
  Hypothesis HD : (1 <= doy <= 366)%Z.
  Hypothesis HH : (0 <= h < 24)%Z.
  Hypothesis HM : (0 <= mi < 60)%Z.
  Hypothesis HLo : degrees lon.
  Hypothesis HLa : degrees lat.
  Hypothesis HZ : zone tz.
  Hypothesis HA : PrimFloat.is_finite az = true /\ Rabs (fval az) <= 900.
  Hypothesis OFF : off_east_west doy h mi (fval lon) (fval lat) (fval tz).
  Notation c := (height_any np_pi sinf cosf doy h mi lon lat tz).
  Notation facing := (facing_any np_pi sinf cosf asinf acosf doy h mi lon lat tz az).

  Lemma cheight : ffin c /\ 0 <= fval c /\ Rabs (fval c - day_height (sun_height doy h mi (fval lon) (fval lat) (fval tz))) <= 2 / 10 ^ 13.
  Proof.
    destruct (raw_height_near sinf cosf GC GS doy h mi lon lat tz HD HH HM HLo HLa HZ) as [F E].
    destruct (clip_val _ F) as [CF CV]. change c with (no_less_than_0 (raw_height sinf cosf doy h mi lon lat tz)).
    split; [exact CF|]. rewrite CV. split; [apply Rmax_l|]. unfold day_height. eapply Rle_trans; [apply Rmax0_lip|exact E].
  Qed.
  Lemma zenith_sine : fval c <= 1 /\ ffin (sinf (acosf c)) /\
    Rabs (fval (cosf (decline_any np_pi cosf doy) * sinf (hour_angle_any np_pi h mi lon tz))%num) <= fval (sinf (acosf c)) /\
    0 < fval (sinf (acosf c)) <= 1 /\ ffin (cosf (decline_any np_pi cosf doy) * sinf (hour_angle_any np_pi h mi lon tz))%num.
  Proof.
    pose proof (room _ _ _ _ _ _ OFF) as RM. destruct cheight as (Fc & C0 & EC).
    pose proof (decline_near cosf GC doy HD) as DN. pose proof (hour_angle_near h mi lon tz HH HM HLo HZ) as HN.
    assert (C1 : apb (cosf (decline_any np_pi cosf doy)) (cos (sun_decl doy)) (11 / 10 ^ 15) 1) by (eapply (b_cos _ _ _ (1 / 10 ^ 14) (42 / 100)); [exact GC|exact DN|lra..]).
    assert (S3 : apb (sinf (hour_angle_any np_pi h mi lon tz)) (sin (sun_hour_angle h mi (fval lon) (fval tz))) (81 / 10 ^ 15) 1) by (eapply (b_sin _ _ _ (8 / 10 ^ 14) 60); [exact GS|exact HN|lra..]).
    assert (Q : apb (cosf (decline_any np_pi cosf doy) * sinf (hour_angle_any np_pi h mi lon tz))%num (cos (sun_decl doy) * sin (sun_hour_angle h mi (fval lon) (fval tz))) (1 / 10 ^ 13) 1)
      by (eapply (b_mul _ _ _ _ (11 / 10 ^ 15) (81 / 10 ^ 15) 1 1); [exact C1|exact S3|lra..]).
    destruct Q as [[FQ EQ] QB]. set (q' := (cosf _ * sinf _)%num) in *. set (q := cos _ * sin _) in *.
    pose proof (day_height_bound doy h mi (fval lon) (fval lat) (fval tz)) as KB. set (k := day_height _) in *. clearbody k q q'.
    set (c0 := fval c) in *. set (q0 := fval q') in *.
    apply Flocq.Core.Raux.Rabs_le_inv in EC, QB.
    assert (QA : Rabs q0 <= Rabs q + 1 / 10 ^ 13).
    { replace q0 with ((q0 - q) + q) by ring. eapply Rle_trans; [apply Rabs_triang|]. lra. }
    assert (QQ : Rsqr q = Rsqr (Rabs q)) by apply Rsqr_abs. assert (A1 : 0 <= Rabs q <= 1) by (split; [apply Rabs_pos|apply Rabs_le; exact QB]).
    rewrite QQ in RM. assert (A0 : 0 <= Rabs q0) by apply Rabs_pos. set (a := Rabs q) in *. set (b := Rabs q0) in *. clearbody a b. unfold Rsqr in RM.
    assert (CK : c0 * c0 <= k * k + 5 / 10 ^ 13) by nra. assert (BA : b * b <= a * a + 3 / 10 ^ 13) by nra.
    assert (SUM : c0 * c0 + b * b <= 1 - 9 / 10 ^ 11) by lra.
    assert (C1' : c0 <= 1) by nra. split; [exact C1'|].
    destruct (GA c (proj1 (ffin_spec _) Fc)) as (FA & [P0 P1] & EA); [apply Rabs_le; fold c0; lra|]. fold c0 in EA.
    pose proof (pi_bounds) as PB. destruct np_pi_bounds as [_ NP].
    destruct (GS (acosf c) FA) as (FS & S1 & ES); [apply Rabs_le; lra|].
    pose proof (sin_lipschitz (fval (acosf c)) (acos c0)) as SL. rewrite (sin_acos c0) in SL by lra.
    set (s := fval (sinf (acosf c))) in *. set (s0 := R_sqrt.sqrt (1 - Rsqr c0)) in *.
    assert (SS : s0 * s0 = 1 - c0 * c0) by (unfold s0; apply R_sqrt.sqrt_sqrt; unfold Rsqr; nra).
    assert (S0 : 0 <= s0) by apply R_sqrt.sqrt_pos. clearbody s0.
    assert (SE : s0 - 3 / 10 ^ 15 <= s).
    { apply Flocq.Core.Raux.Rabs_le_inv in ES, SL. lra. }
    assert (D : 9 / 10 ^ 11 <= (s0 - b) * (s0 + b)) by nra. assert (S01 : s0 <= 1) by nra. assert (B01 : b <= 1) by nra.
    assert (D2 : 4 / 10 ^ 11 <= s0 - b) by nra. apply Flocq.Core.Raux.Rabs_le_inv in S1.
    split; [apply ffin_spec; exact FS|]. split; [lra|]. split; [lra|exact FQ].
  Qed.
  Lemma facing_number : fb facing 1.
  Proof.
    destruct zenith_sine as (_ & _ & QS & SP & FQ). unfold facing_any. cbv zeta.
    set (q := (cosf (decline_any np_pi cosf doy) * sinf (hour_angle_any np_pi h mi lon tz))%num) in *. set (s := sinf (acosf c)) in *. clearbody q s.
    assert (B : Rabs (fval q / fval s) <= 1).
    { unfold Rdiv. rewrite Rabs_mult, (Rabs_pos_eq (/ fval s)) by (left; apply Rinv_0_lt_compat; lra).
      apply Rmult_le_reg_r with (fval s); [lra|]. rewrite Rmult_assoc, Rinv_l by lra. lra. }
    apply Flocq.Core.Raux.Rabs_le_inv in B.
    destruct (fdiv_correct q s FQ) as [E F]; [lra|apply (mid_small _ (-1)%float 1%float); rewrite ?fv_m1, ?fv_1; lra|].
    assert (BR : Rabs (fval (q / s)%float) <= 1).
    { rewrite E. apply Rabs_le. split; [rewrite <- fv_m1 at 1; apply rnd_ge_fval; rewrite fv_m1; lra|rewrite <- fv_1 at 1; apply rnd_le_fval; rewrite fv_1; lra]. }
    destruct (UA (q / s)%float (proj1 (ffin_spec _) F) BR) as [FM BM]. change (q / s)%num with (q / s)%float.
    destruct (fb_sub (asinf (q / s)%float) az 1.6 900 902) as [FS BS]; [split; [apply ffin_spec; exact FM|exact BM]|split; [apply ffin_spec|]; apply HA|lra|lra|].
    destruct (GC _ (proj1 (ffin_spec _) FS) ltac:(lra)) as (FC & CB & _). split; [apply ffin_spec; exact FC|exact CB].
  Qed.
  (** every slope *)
  Lemma pot_number slope cl : PrimFloat.is_finite slope = true /\ Rabs (fval slope) <= 1000 -> cloudiness cl ->
    let p := pot_any np_pi sinf cosf asinf acosf doy h mi lon lat tz slope az cl in
    fb (fst p) 9000 /\ fb (snd p) 3000 /\ fb (fst p + snd p)%num 13000.
  Proof.
    intros [FSl BSl] [FCl [L0 L1]]. unfold pot_any. cbv zeta. cbn [fst snd].
    destruct zenith_sine as (C1 & Fz & _ & SZ & _). destruct cheight as (Fc & C0 & _). pose proof facing_number as FN.
    assert (XC : fb c 1) by (split; [exact Fc|apply Rabs_le; lra]).
    assert (XZ : fb (sinf (acosf c)) 1) by (split; [exact Fz|apply Rabs_le; lra]).
    assert (XR : fb (ratio_any np_pi sinf cosf doy) 1.04).
    { destruct (ratio_near sinf cosf GC GS doy HD) as [FR ER]. pose proof (sun_ratio_bounds doy). split; [exact FR|]. apply Flocq.Core.Raux.Rabs_le_inv in ER. apply Rabs_le. lra. }
    set (z := sinf (acosf c)) in *. set (f := facing) in *. set (cc := c) in *. set (r := ratio_any np_pi sinf cosf doy) in *. clearbody z f cc r.
    destruct (GC slope FSl BSl) as (FC & CB & _). destruct (GS slope FSl BSl) as (FS & SB & _).
    assert (XCS : fb (cosf slope) 1) by (split; [apply ffin_spec; exact FC|exact CB]). assert (XSS : fb (sinf slope) 1) by (split; [apply ffin_spec; exact FS|exact SB]).
    set (cs := cosf slope) in *. set (ss := sinf slope) in *. clearbody cs ss.
    assert (XL : fb cl 1) by (split; [apply ffin_spec; exact FCl|apply Rabs_le; lra]).
    assert (X1 : fb n1 1) by (split; [reflexivity|change (fval n1) with (fval 1%float); rewrite fv_1, Rabs_R1; lra]).
    assert (lits : fb (lit 6 1) 0.61 /\ fb (lit 2 1) 0.21 /\ fb (lit 3 1) 0.31 /\ fb (lit 1 1) 0.11).
    { assert (B : forall m b, (0 < m <= 6)%Z -> IZR m / 10 + 1 / 1000 <= b -> fb (lit m 1) b).
      { intros m b M L. assert (0 < IZR m <= 6) by (split; [apply IZR_lt|apply IZR_le]; lia). eapply (apb_fb _ _ (1 / 1000)); [apply (b_lit m 1 (1 / 1000) (IZR m / 10)); change (10 ^ 1)%Z with 10%Z; rewrite ?Z.abs_eq by lia; try lia; lra|lra]. }
      repeat split; apply B; try lia; lra. }
    destruct lits as (L6 & L2 & L3 & L4).
    assert (X1367 : fb (n_ofZ 1367) 1367) by (eapply apb_fb; [apply (b_Z 1367 1367); num|lra]).
    assert (SC : fb (n_ofZ 1367 * r)%num 1422) by (eapply fb_mul; [exact X1367|exact XR|lra|lra]).
    assert (T1 : fb ((lit 6 1 + lit 2 1 * cc) * (n1 - cl))%num 1.7).
    { eapply (fb_mul _ _ 0.83 2.01); [eapply (fb_add _ _ 0.61 0.215); [exact L6|eapply fb_mul; [exact L2|exact XC|lra|lra]|lra|lra]|eapply fb_sub; [exact X1|exact XL|lra|lra]|lra|lra]. }
    assert (T2 : fb ((lit 3 1 + lit 1 1 * cc) * cl)%num 0.44).
    { eapply (fb_mul _ _ 0.43 1); [eapply (fb_add _ _ 0.31 0.115); [exact L3|eapply fb_mul; [exact L4|exact XC|lra|lra]|lra|lra]|exact XL|lra|lra]. }
    assert (CI : fb (cs * cc + ss * z * f)%num 2.1).
    { eapply (fb_add _ _ 1.01 1.02); [eapply fb_mul; [exact XCS|exact XC|lra|lra]|eapply (fb_mul _ _ 1.01 1); [eapply fb_mul; [exact XSS|exact XZ|lra|lra]|exact FN|lra|lra]|lra|lra]. }
    set (sc := (n_ofZ 1367 * r)%num) in *. set (t1 := (_ * (n1 - cl))%num) in *. set (t2 := (_ * cl)%num) in *. set (ci := (cs * cc + _)%num) in *. clearbody sc t1 t2 ci.
    assert (R1 : fb (no_less_than_0 (sc * t1 * ci)%num) 9000).
    { apply fb_clip; [|lra]. eapply (fb_mul _ _ 2420 2.1); [eapply fb_mul; [exact SC|exact T1|lra|lra]|exact CI|lra|lra]. }
    assert (R2 : fb (sc * t2 * cc)%num 3000) by (eapply (fb_mul _ _ 700 1); [eapply fb_mul; [exact SC|exact T2|lra|lra]|exact XC|lra|lra]).
    split; [exact R1|]. split; [exact R2|]. eapply fb_add; [exact R1|exact R2|lra|lra].
  Qed.
End Number.

(** any slope, any azimuth: a number whenever the sun is not due east or west *)
Theorem C134_number sinf cosf asinf acosf doy h mi lon lat tz slope az cl :
  good_sine sinf -> good_cosine cosf -> good_arccosine acosf -> usable_arcsine asinf ->
  (1 <= doy <= 366)%Z -> (0 <= h < 24)%Z -> (0 <= mi < 60)%Z -> degrees lon -> degrees lat -> zone tz ->
  PrimFloat.is_finite slope = true /\ Rabs (fval slope) <= 1000 -> PrimFloat.is_finite az = true /\ Rabs (fval az) <= 900 -> cloudiness cl ->
  off_east_west doy h mi (fval lon) (fval lat) (fval tz) ->
  let p := pot_any np_pi sinf cosf asinf acosf doy h mi lon lat tz slope az cl in
  PrimFloat.is_finite (fst p) = true /\ PrimFloat.is_finite (snd p) = true /\ PrimFloat.is_finite (fst p + snd p)%float = true.
Proof.
  intros GS GC GA UA HD HH HM HLo HLa HZ HS HA HC OFF p.
  destruct (pot_number sinf cosf asinf acosf GS GC GA UA doy h mi lon lat tz az HD HH HM HLo HLa HZ HA OFF slope cl HS HC) as ([A _] & [B _] & [C _]).
  repeat split; apply ffin_spec; assumption.
Qed.
Print Assumptions C134_number.

Lemma finite_number x : PrimFloat.is_finite x = true -> is_nan x = false.
Proof. intro F. apply ffin_not_nan, ffin_spec, F. Qed.
(** on flat ground: within 1e-9 of the exact amount *)
Theorem C134_flat sinf cosf asinf acosf doy h mi lon lat tz az cl :
  good_sine sinf -> good_cosine cosf -> good_arccosine acosf -> usable_arcsine asinf -> exact_at_0 sinf cosf -> bounded_by_1 sinf -> bounded_by_1 cosf ->
  (1 <= doy <= 366)%Z -> (0 <= h < 24)%Z -> (0 <= mi < 60)%Z -> degrees lon -> degrees lat -> zone tz ->
  PrimFloat.is_finite az = true /\ Rabs (fval az) <= 900 -> cloudiness cl ->
  off_east_west doy h mi (fval lon) (fval lat) (fval tz) ->
  let p := pot_any np_pi sinf cosf asinf acosf doy h mi lon lat tz 0%float az cl in
  let c := Rmax 0 (sun_height doy h mi (fval lon) (fval lat) (fval tz)) in
  within (1 / 10 ^ 9) (fst p + snd p)%float (1367 * sun_ratio doy * ((0.6 + 0.2 * c) * (1 - fval cl) + (0.3 + 0.1 * c) * fval cl) * c).
Proof.
  intros GS GC GA UA E0 BS BC HD HH HM HLo HLa HZ HA HC OFF p c.
  assert (HS : PrimFloat.is_finite 0%float = true /\ Rabs (fval 0%float) <= 1000) by (split; [reflexivity|rewrite fv_0, Rabs_R0; lra]).
  destruct (C134_number sinf cosf asinf acosf doy h mi lon lat tz 0%float az cl GS GC GA UA HD HH HM HLo HLa HZ HS HA HC OFF) as (_ & _ & F).
  destruct (C125_flat sinf cosf asinf acosf doy h mi lon lat tz az cl GS GC E0 BS BC HD HH HM HLo HLa HZ HC) as (_ & _ & [N|W]); [|exact W].
  exfalso. apply finite_number in F. congruence.
Qed.
Print Assumptions C134_flat.

(** 'pot_rad' with the computed clear sky: what was asked of the computed values is asked of the sun *)
Theorem C134_clear_sky mean sinf cosf asinf acosf e (d : dframe float) d0 gl lon lat tz az :
  means_within mean -> good_sine sinf -> good_cosine cosf -> good_arccosine acosf -> usable_arcsine asinf -> exact_at_0 sinf cosf -> bounded_by_1 sinf -> bounded_by_1 cosf ->
  degrees lon -> degrees lat -> zone tz -> PrimFloat.is_finite az = true /\ Rabs (fval az) <= 900 ->
  gl <> [] -> f_index d = daily_index d0 (length gl) -> assoc "glob" (f_cols d) = Some gl ->
  exists out, rad_pot_with mean e d (potential_any np_pi sinf cosf asinf acosf (hours_index d0 (length gl)) lon lat tz 0%float az 0%float) = Ok out /\
    map fst out = hours_index d0 (length gl) /\
    forall i g, nth_error gl i = Some g -> intensity g ->
      let day := (d0 + Z.of_nat i)%Z in let sky := sky_day day (fval lon) (fval lat) (fval tz) in
      (forall h, (0 <= h < 24)%Z -> off_east_west (doy_of_day day) h 0 (fval lon) (fval lat) (fval tz)) -> 1 <= Rmean sky ->
      length (values_on day out) = 24%nat /\
      (forall h s v, nth_error sky h = Some s -> nth_error (values_on day out) h = Some v ->
         clear_share sky (fval g) s v /\
         (sun_height (doy_of_day day) (Z.of_nat h) 0 (fval lon) (fval lat) (fval tz) <= - (1 / 10 ^ 12) -> (v =? 0)%float = true)) /\
      fval g - 1 / 100 - (1 / 10 ^ 13 * fval g + 1 / 10 ^ 15) <= Rmean (map fval (values_on day out)) <= fval g + 1 / 10 ^ 13 * fval g.
Proof.
  intros HM GS GC GA UA E0 BS BC HLo HLa HZ HA NE FI C.
  destruct (C133_clear_sky mean sinf cosf asinf acosf e d d0 gl lon lat tz az HM GS GC E0 BS BC HLo HLa HZ NE FI C) as (out & E & EI & V).
  exists out. split; [exact E|]. split; [exact EI|]. intros i g Hg Ig day sky OFF LM. apply (V i g Hg Ig); [|exact LM].
  assert (Hi : (i < length gl)%nat) by (apply nth_error_Some; congruence). fold day.
  unfold day at 1. rewrite pot_of_day by exact Hi. fold day. apply Forall_map, Forall_forall. intros h Hh. apply in_seq in Hh.
  assert (HS : PrimFloat.is_finite 0%float = true /\ Rabs (fval 0%float) <= 1000) by (split; [reflexivity|rewrite fv_0, Rabs_R0; lra]).
  assert (HC : cloudiness 0%float) by (split; [reflexivity|rewrite fv_0; lra]).
  apply finite_number. unfold clear_pot. cbv zeta.
  apply (C134_number sinf cosf asinf acosf (doy_of_day day) (Z.of_nat h) 0 lon lat tz 0%float az 0%float GS GC GA UA (doy_range day) ltac:(lia) ltac:(lia) HLo HLa HZ HS HA HC).
  apply OFF. lia.
Qed.
Print Assumptions C134_clear_sky.

(** ** places: on the equator the sun never stands due east or west at any time of any day *)
Lemma cos_away x : Rabs x <= PI / 2 - 0.005 -> 0.0025 <= cos x.
Proof.
  intro H. pose proof pi_bounds as P.
  assert (E : cos x = cos (Rabs x)) by (unfold Rabs; destruct (Rcase_abs x); [symmetry; apply cos_neg|reflexivity]). rewrite E.
  apply Rle_trans with (cos (PI / 2 - 0.005)); [rewrite cos_shift; pose proof (sin_half 0.005 ltac:(lra)); lra|].
  pose proof (Rabs_pos x). apply cos_decr_1; lra.
Qed.
Lemma decl_away doy : (1 <= doy <= 366)%Z -> 0.0005 <= Rabs (sin (sun_decl doy)).
Proof.
  intro HD. pose proof pi_bounds as P. unfold sun_decl. set (x := 2 * PI * (IZR doy - 173) / 365.25).
  assert (C : 0.0025 <= Rabs (cos x)).
  { assert (K : (doy <= 81 \/ 82 <= doy <= 264 \/ 265 <= doy)%Z) by lia. destruct K as [K|[K|K]].
    - assert (B : 1 <= IZR doy <= 81) by (split; apply IZR_le; lia).
      replace (cos x) with (- cos (x + PI)) by (rewrite neg_cos; ring). rewrite Rabs_Ropp. eapply Rle_trans; [apply (cos_away (x + PI))|apply Rle_abs].
      replace (x + PI) with (PI * (2 * (IZR doy - 173) / 365.25 + 1)) by (unfold x, Rdiv; ring). rewrite Rabs_mult, (Rabs_pos_eq PI) by lra.
      apply Rle_trans with (PI * 0.4965); [|lra]. apply Rmult_le_compat_l; [lra|]. apply Rabs_le. lra.
    - assert (B : 82 <= IZR doy <= 264) by (split; apply IZR_le; lia). eapply Rle_trans; [apply (cos_away x)|apply Rle_abs].
      replace x with (PI * (2 * (IZR doy - 173) / 365.25)) by (unfold x, Rdiv; ring). rewrite Rabs_mult, (Rabs_pos_eq PI) by lra.
      apply Rle_trans with (PI * 0.4983); [|lra]. apply Rmult_le_compat_l; [lra|]. apply Rabs_le. lra.
    - assert (B : 265 <= IZR doy <= 366) by (split; apply IZR_le; lia).
      replace (cos x) with (- cos (x - PI)) by (replace x with ((x - PI) + PI) at 2 by ring; rewrite neg_cos; ring). rewrite Rabs_Ropp. eapply Rle_trans; [apply (cos_away (x - PI))|apply Rle_abs].
      replace (x - PI) with (PI * (2 * (IZR doy - 173) / 365.25 - 1)) by (unfold x, Rdiv; ring). rewrite Rabs_mult, (Rabs_pos_eq PI) by lra.
      apply Rle_trans with (PI * 0.4965); [|lra]. apply Rmult_le_compat_l; [lra|]. apply Rabs_le. lra. }
  pose proof (COS_bound x) as CB. clearbody x. set (y := 23.43697 * (PI / 180) * cos x).
  assert (S : Rabs (sin y) = sin (Rabs y) /\ 0.001 <= Rabs y <= 0.5).
  { assert (B : 0.001 <= Rabs y <= 0.5).
    { unfold y. rewrite Rabs_mult, Rabs_pos_eq by lra. assert (Rabs (cos x) <= 1) by (apply Rabs_le; lra). nra. }
    split; [|exact B]. unfold Rabs at 2. unfold Rabs in B. destruct (Rcase_abs y) in *.
    - rewrite sin_neg. rewrite Rabs_left1; [reflexivity|]. rewrite <- (Ropp_involutive y), sin_neg. pose proof (sin_ge_0 (- y) ltac:(lra) ltac:(lra)). lra.
    - rewrite Rabs_pos_eq; [reflexivity|]. apply sin_ge_0; lra. }
  destruct S as [-> B]. pose proof (sin_half (Rabs y) ltac:(lra)). lra.
Qed.
Theorem C134_equator doy h mi lon tz : (1 <= doy <= 366)%Z -> off_east_west doy h mi lon 0 tz.
Proof.
  intro HD. left. unfold sun_north. rewrite Rmult_0_l, sin_0, cos_0. replace (sin (sun_decl doy) * 1 - cos (sun_decl doy) * 0 * cos (sun_hour_angle h mi lon tz)) with (sin (sun_decl doy)) by ring.
  pose proof (decl_away doy HD). lra.
Qed.
Print Assumptions C134_equator.

(** ** functions and a day that meet the hypotheses *)
Definition rounded_asin (x : float) : float := float_of_R (asin (fval x)).
Example C134_functions_exist : good_sine rounded_sin /\ good_cosine rounded_cosine /\ good_arccosine rounded_acos /\ usable_arcsine rounded_asin /\
  exact_at_0 rounded_sin rounded_cosine /\ bounded_by_1 rounded_sin /\ bounded_by_1 rounded_cosine.
Proof.
  destruct C125_functions_exist as (A & B & C & D & E). destruct C126_functions_exist as (_ & _ & _ & F).
  repeat (split; [assumption|]). split; [|repeat (split; [assumption|]); assumption].
  intros x _ H. unfold rounded_asin. pose proof pi_bounds as P. pose proof (asin_bound (fval x)) as AB.
  assert (L : Rabs (asin (fval x)) <= 1.571) by (apply Rabs_le; lra).
  assert (V : fval 2%float = 2) by (unfold fval; vm_compute; lra).
  destruct (float_of_R_any (asin (fval x)) 2%float) as [FF VV]; [rewrite V; lra|]. split; [apply ffin_spec; exact FF|]. rewrite VV.
  pose proof (rnd_err (asin (fval x))) as R. pose proof eta_tiny as ET. unfold u64 in R.
  replace (rnd (asin (fval x))) with ((rnd (asin (fval x)) - asin (fval x)) + asin (fval x)) by ring. eapply Rle_trans; [apply Rabs_triang|]. lra.
Qed.
(** the equator on 1 January 1970; 47.5 north and 15 east at noon of 1 July *)
Example C134_met : (forall h, (0 <= h < 24)%Z -> off_east_west (doy_of_day 0) h 0 (fval 0) (fval 0) (fval 0)) /\
  1 <= Rmean (sky_day 0 (fval 0) (fval 0) (fval 0)) /\ off_east_west 182 12 0 15 47.5 1.
Proof.
  split; [intros h _; rewrite !fv_0; apply C134_equator, doy_range|]. split; [apply C133_met|].
  left. unfold sun_north. replace (sun_hour_angle 12 0 15 1) with 0 by (unfold sun_hour_angle; lra). rewrite cos_0.
  replace (sin (sun_decl 182) * cos (47.5 * (PI / 180)) - cos (sun_decl 182) * sin (47.5 * (PI / 180)) * 1) with (sin (sun_decl 182 - 47.5 * (PI / 180))) by (rewrite sin_minus; ring).
  pose proof pi_bounds as P. set (y := 47.5 * (PI / 180) - sun_decl 182). replace (sun_decl 182 - 47.5 * (PI / 180)) with (- y) by (unfold y; ring). rewrite sin_neg, Rabs_Ropp.
  assert (B : 0.1 <= y <= PI / 3).
  { unfold y, sun_decl. set (x := 2 * PI * (182 - 173) / 365.25). pose proof (COS_bound x) as CB. assert (C : 0.86 <= cos x) by (apply cos_small; unfold x; rewrite Rabs_pos_eq; lra). clearbody x. nra. }
  pose proof (sin_half y ltac:(lra)). rewrite Rabs_pos_eq; lra.
Qed.
