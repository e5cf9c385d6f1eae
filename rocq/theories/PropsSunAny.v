(** Property C126: sun times in binary64 arithmetic. *)
From Coq Require Import ZArith List Bool Lia Reals Lra Floats.
From Flocq Require Import Core.
From Verif Require Import Num Cal Trans UtilModel2 SpecUtil F64 CascadeFloat CascadeRound FiveRound AggRound CourseRound SpecSineRound ErrCalc SineRound
  PropsSineRound PotAnyModel SpecPotAny PotAny PropsRadAny PropsPotAny SunAnyModel SpecSunAny SunAny.
Import ListNotations.
Open Scope R_scope.

(** the formulas are those of the other properties *)
Theorem C126_same dates lon lat tz :
  map (fun p => (fst p, {| sunrise := l_rise (snd p); sunnoon := l_noon (snd p); sunset := l_set (snd p); daylength := l_length (snd p) |}))
    (sun_times_any xpi xsin xcos xtan xacos dates lon lat tz) = get_sun_times dates lon lat tz.
Proof.
  unfold sun_times_any, get_sun_times. rewrite map_map. apply map_ext. intro t. cbn [fst snd]. f_equal.
  unfold sun_any, sun_times1. change (raw_any xpi xsin xcos xtan xacos) with sun_raw.
  destruct (sun_raw (doy_of_day (date_of t)) lon lat tz) as [[r n] s]. reflexivity.
Qed.
Print Assumptions C126_same.

Lemma fields sinf cosf tanf acosf doy lon lat tz rise noon set : raw_any np_pi sinf cosf tanf acosf doy lon lat tz = (rise, noon, set) ->
  sun_any np_pi sinf cosf tanf acosf doy lon lat tz = {| l_rise := late rise; l_noon := noon; l_set := early set; l_length := (set - rise)%num |}.
Proof. intro E. unfold sun_any. rewrite E. reflexivity. Qed.
Lemma the_row sinf cosf tanf acosf dates lon lat tz t s : In (t, s) (sun_times_any np_pi sinf cosf tanf acosf dates lon lat tz) ->
  s = sun_any np_pi sinf cosf tanf acosf (doy_of_day (date_of t)) lon lat tz.
Proof. intro H. apply in_map_iff in H as (u & E & _). injection E as -> <-. reflexivity. Qed.

(** one row per date, in their order; noon next to the exact one; all times are numbers; a day is never negative and never longer than 24 hours but for rounding;
    with noon on the day, sunrise and sunset are times of a day *)
Theorem C126_range sinf cosf tanf acosf dates lon lat tz :
  good_sine sinf -> good_cosine cosf -> good_tangent tanf -> good_arccosine acosf -> degrees lon -> degrees lat -> zone tz ->
  map fst (sun_times_any np_pi sinf cosf tanf acosf dates lon lat tz) = dates /\
  forall t s, In (t, s) (sun_times_any np_pi sinf cosf tanf acosf dates lon lat tz) ->
    within (1 / 10 ^ 12) (l_noon s) (noon_R (doy_of_day (date_of t)) (fval lon) (fval tz)) /\
    PrimFloat.is_finite (l_rise s) = true /\ PrimFloat.is_finite (l_set s) = true /\ up_to (24 + 1 / 10 ^ 11) (l_length s) /\
    (0 <= fval (l_noon s) <= 24 -> 0 <= fval (l_rise s) <= 24 /\ 0 <= fval (l_set s) <= 24).
Proof.
  intros GS GC GT GA HL HA HZ. split; [unfold sun_times_any; rewrite map_map; apply map_id|].
  intros t s H. apply the_row in H. subst s. set (doy := doy_of_day (date_of t)). assert (HD : (1 <= doy <= 366)%Z) by apply doy_range. clearbody doy.
  destruct (raw_facts sinf cosf tanf acosf GS GC GT GA doy lon lat tz HD HL HA HZ) as (rise & noon & set & E & FR & FS & NN & O & B1 & B2).
  rewrite (fields _ _ _ _ _ _ _ _ _ _ _ E). cbn [l_rise l_noon l_set l_length].
  pose proof NN as [N1 N2]. pose proof (app_bound _ _ _ _ N1 N2) as BN. pose proof N1 as [FN EN]. pose proof BN as BN'. apply Flocq.Core.Raux.Rabs_le_inv in BN'.
  split; [split; [apply ffin_spec; exact FN|exact EN]|].
  assert (BR : Rabs (fval rise) <= 300) by (apply Rabs_le; lra). assert (BS : Rabs (fval set) <= 300) by (apply Rabs_le; lra).
  destruct (late_near rise (fval rise) 0 (app_exact _ FR) BR ltac:(lra)) as (k1 & _ & _ & _ & [FL _]).
  destruct (early_near set (fval set) 0 (app_exact _ FS) BS ltac:(lra)) as (k2 & _ & _ & _ & [FE _]).
  split; [apply ffin_spec; exact FL|]. split; [apply ffin_spec; exact FE|].
  destruct (length_sign rise set FR FS ltac:(lra) BR BS) as (FX & X0 & _).
  pose proof (length_near rise set (fval rise) (fval set) 0 (app_exact _ FR) (app_exact _ FS) BR BS ltac:(lra)) as [_ LE]. apply Flocq.Core.Raux.Rabs_le_inv in LE.
  split; [split; [apply ffin_spec; exact FX|lra]|].
  intro K. split; [apply late_range; [exact FR|lra]|apply early_range; [exact FS|lra]].
Qed.
Print Assumptions C126_range.

(** the sun rises and sets: the times are next to the exact ones *)
Theorem C126_near sinf cosf tanf acosf dates lon lat tz t s :
  good_sine sinf -> good_cosine cosf -> good_tangent tanf -> good_arccosine acosf -> degrees lon -> degrees lat -> Rabs (fval lat) <= 89 -> zone tz ->
  In (t, s) (sun_times_any np_pi sinf cosf tanf acosf dates lon lat tz) ->
  let noon := noon_R (doy_of_day (date_of t)) (fval lon) (fval tz) in
  let u := rise_cos (decl_R (doy_of_day (date_of t))) (fval lat) in
  Rabs u <= 0.999 ->
  rises (1 / 10 ^ 8) (l_rise s) (noon - 12 * (acos u / PI)) /\ sets (1 / 10 ^ 8) (l_set s) (noon + 12 * (acos u / PI)) /\
  within (1 / 10 ^ 8) (l_length s) (24 * (acos u / PI)).
Proof.
  intros GS GC GT GA HL [FA _] BA HZ H. apply the_row in H. subst s. set (doy := doy_of_day (date_of t)). assert (HD : (1 <= doy <= 366)%Z) by apply doy_range. clearbody doy.
  intros noon u HU. destruct (raw_near sinf cosf tanf acosf GS GC GT GA doy lon lat tz HD HL FA BA HZ HU) as (rise & set & E & AR & AS). fold noon in AR, AS. fold (rise_cos (decl_R doy) (fval lat)) in AR, AS. fold u in AR, AS.
  rewrite (fields _ _ _ _ _ _ _ _ _ _ _ E). cbn [l_rise l_noon l_set l_length].
  destruct (noon_near sinf cosf GS GC doy lon tz HD HL HZ) as [_ BN]. fold noon in BN. apply Flocq.Core.Raux.Rabs_le_inv in BN.
  assert (Q : 0 <= acos u / PI <= 1).
  { pose proof pi_bounds. pose proof (acos_bound u). split; [apply Rmult_le_pos; [lra|left; apply Rinv_0_lt_compat; lra]|]. apply Rmult_le_reg_r with PI; [lra|]. unfold Rdiv. rewrite Rmult_assoc, Rinv_l by lra. lra. }
  assert (BR : Rabs (noon - 12 * (acos u / PI)) <= 300) by (apply Rabs_le; lra). assert (BS : Rabs (noon + 12 * (acos u / PI)) <= 300) by (apply Rabs_le; lra).
  split; [|split].
  - destruct (late_near _ _ _ AR BR ltac:(lra)) as (k & K & K1 & K2 & [F X]). exists k. split; [exact K|]. split; [intro; apply K1; lra|]. split; [intro; apply K2; lra|]. split; [apply ffin_spec; exact F|lra].
  - destruct (early_near _ _ _ AS BS ltac:(lra)) as (k & K & K1 & K2 & [F X]). exists k. split; [exact K|]. split; [intro; apply K1; lra|]. split; [intro; apply K2; lra|]. split; [apply ffin_spec; exact F|lra].
  - destruct (length_near _ _ _ _ _ AR AS BR BS ltac:(lra)) as [F X]. split; [apply ffin_spec; exact F|].
    replace (24 * (acos u / PI)) with (noon + 12 * (acos u / PI) - (noon - 12 * (acos u / PI))) by ring. lra.
Qed.
Print Assumptions C126_near.

(** the sun never sets: sunrise 12 hours before noon, sunset 12 hours after it *)
Theorem C126_midnight_sun sinf cosf tanf acosf dates lon lat tz t s :
  good_sine sinf -> good_cosine cosf -> good_tangent tanf -> good_arccosine acosf -> degrees lon -> degrees lat -> Rabs (fval lat) <= 89 -> zone tz ->
  In (t, s) (sun_times_any np_pi sinf cosf tanf acosf dates lon lat tz) ->
  let noon := noon_R (doy_of_day (date_of t)) (fval lon) (fval tz) in
  rise_cos (decl_R (doy_of_day (date_of t))) (fval lat) < -1 - 1 / 10 ^ 10 ->
  rises (1 / 10 ^ 11) (l_rise s) (noon - 12) /\ sets (1 / 10 ^ 11) (l_set s) (noon + 12) /\ within (1 / 10 ^ 11) (l_length s) 24.
Proof.
  intros GS GC GT GA HL HA BA HZ H. apply the_row in H. subst s. set (doy := doy_of_day (date_of t)). assert (HD : (1 <= doy <= 366)%Z) by apply doy_range. clearbody doy.
  intros noon HU. pose proof (arg_near sinf cosf tanf GS GC GT doy lat HD (proj1 HA) BA) as [FX EX]. fold (rise_cos (decl_R doy) (fval lat)) in EX. apply Flocq.Core.Raux.Rabs_le_inv in EX.
  destruct (raw_cases sinf cosf tanf acosf GS GC GT doy lon lat tz HD HA) as [[C E]|[[C E]|[C E]]]; [|exfalso; lra|exfalso; apply Flocq.Core.Raux.Rabs_le_inv in C; lra].
  rewrite (fields _ _ _ _ _ _ _ _ _ _ _ E). cbn [l_rise l_noon l_set l_length].
  pose proof (noon_near sinf cosf GS GC doy lon tz HD HL HZ) as NN. fold noon in NN. pose proof NN as [_ BN]. apply Flocq.Core.Raux.Rabs_le_inv in BN.
  set (n := moved sinf cosf doy lon tz n1) in *. clearbody n.
  assert (AR : apb (n - n_ofZ 12)%num (noon - 12) (2 / 10 ^ 12) 212) by (eapply (b_sub _ _ _ _ (1 / 10 ^ 12) 0 200 12); [exact NN|apply (b_Z 12); num|lra..]).
  assert (AS : apb (n + n_ofZ 12)%num (noon + 12) (2 / 10 ^ 12) 212) by (eapply (b_add _ _ _ _ (1 / 10 ^ 12) 0 200 12); [exact NN|apply (b_Z 12); num|lra..]).
  destruct AR as [AR BR], AS as [AS BS].
  split; [|split].
  - destruct (late_near _ _ _ AR ltac:(lra) ltac:(lra)) as (k & K & K1 & K2 & [F X]). exists k. split; [exact K|]. split; [intro; apply K1; lra|]. split; [intro; apply K2; lra|]. split; [apply ffin_spec; exact F|lra].
  - destruct (early_near _ _ _ AS ltac:(lra) ltac:(lra)) as (k & K & K1 & K2 & [F X]). exists k. split; [exact K|]. split; [intro; apply K1; lra|]. split; [intro; apply K2; lra|]. split; [apply ffin_spec; exact F|lra].
  - destruct (length_near _ _ _ _ _ AR AS ltac:(lra) ltac:(lra) ltac:(lra)) as [F X]. split; [apply ffin_spec; exact F|].
    replace (fval (n + n_ofZ 12 - (n - n_ofZ 12))%num - 24) with (fval (n + n_ofZ 12 - (n - n_ofZ 12))%num - (noon + 12 - (noon - 12))) by ring. lra.
Qed.
Print Assumptions C126_midnight_sun.

(** the sun never rises: sunrise and sunset at noon, the day has length exactly 0 *)
Theorem C126_polar_night sinf cosf tanf acosf dates lon lat tz t s :
  good_sine sinf -> good_cosine cosf -> good_tangent tanf -> good_arccosine acosf -> degrees lon -> degrees lat -> Rabs (fval lat) <= 89 -> zone tz ->
  In (t, s) (sun_times_any np_pi sinf cosf tanf acosf dates lon lat tz) ->
  let noon := noon_R (doy_of_day (date_of t)) (fval lon) (fval tz) in
  1 + 1 / 10 ^ 10 < rise_cos (decl_R (doy_of_day (date_of t))) (fval lat) ->
  rises (1 / 10 ^ 11) (l_rise s) noon /\ sets (1 / 10 ^ 11) (l_set s) noon /\ (l_length s =? 0)%float = true.
Proof.
  intros GS GC GT GA HL HA BA HZ H. apply the_row in H. subst s. set (doy := doy_of_day (date_of t)). assert (HD : (1 <= doy <= 366)%Z) by apply doy_range. clearbody doy.
  intros noon HU. pose proof (arg_near sinf cosf tanf GS GC GT doy lat HD (proj1 HA) BA) as [FX EX]. fold (rise_cos (decl_R doy) (fval lat)) in EX. apply Flocq.Core.Raux.Rabs_le_inv in EX.
  destruct (raw_cases sinf cosf tanf acosf GS GC GT doy lon lat tz HD HA) as [[C E]|[[C E]|[C E]]]; [exfalso; lra| |exfalso; apply Flocq.Core.Raux.Rabs_le_inv in C; lra].
  rewrite (fields _ _ _ _ _ _ _ _ _ _ _ E). cbn [l_rise l_noon l_set l_length].
  destruct (noon_near sinf cosf GS GC doy lon tz HD HL HZ) as [NN BN]. fold noon in NN, BN. pose proof (app_bound _ _ _ _ NN BN) as BV. pose proof NN as [FN _].
  set (n := moved sinf cosf doy lon tz n1) in *. clearbody n.
  split; [|split].
  - destruct (late_near _ _ _ NN ltac:(lra) ltac:(lra)) as (k & K & K1 & K2 & [F X]). exists k. split; [exact K|]. split; [intro; apply K1; lra|]. split; [intro; apply K2; lra|]. split; [apply ffin_spec; exact F|lra].
  - destruct (early_near _ _ _ NN ltac:(lra) ltac:(lra)) as (k & K & K1 & K2 & [F X]). exists k. split; [exact K|]. split; [intro; apply K1; lra|]. split; [intro; apply K2; lra|]. split; [apply ffin_spec; exact F|lra].
  - destruct (length_sign n n FN FN ltac:(lra) ltac:(lra) ltac:(lra)) as (F & _ & V). apply (eqb_true _ _ F ffin_zero). change (fval 0%float) with (fval 0%float). rewrite (V eq_refl). symmetry. apply fv_0.
Qed.
Print Assumptions C126_polar_night.

(** functions that meet what is asked *)
Definition rounded_tan (x : float) : float := if Rle_dec (Rabs (tan (fval x))) 1000 then float_of_R (tan (fval x)) else 1%float.
Definition rounded_acos (x : float) : float := float_of_R (Rmin (acos (fval x)) (fval np_pi)).
Example C126_functions_exist : good_sine rounded_sin /\ good_cosine rounded_cosine /\ good_tangent rounded_tan /\ good_arccosine rounded_acos.
Proof.
  destruct C125_functions_exist as (A & B & _). split; [exact A|]. split; [exact B|].
  assert (V : fval 1024%float = 1024) by (unfold fval; vm_compute; lra). pose proof eta_tiny as ET. pose proof eta64_pos as E0. pose proof pi_bounds as P. destruct np_pi_bounds as [FP NP].
  assert (N : forall r, Rabs r <= 1000 -> ffin (float_of_R r) /\ fval (float_of_R r) = rnd r /\ Rabs (fval (float_of_R r) - r) <= 12 / 10 ^ 17 * Rabs r + eta64).
  { intros r H. destruct (float_of_R_any r 1024%float) as [F E]; [rewrite V; lra|]. split; [exact F|]. split; [exact E|]. rewrite E. pose proof (rnd_err r) as R. pose proof u64_tiny. pose proof (Rabs_pos r).
    assert (u64 * Rabs r <= 12 / 10 ^ 17 * Rabs r) by (apply Rmult_le_compat_r; lra). lra. }
  split; [split|].
  - intros x _ _. unfold rounded_tan. destruct (Rle_dec (Rabs (tan (fval x))) 1000) as [L|L].
    + destruct (N _ L) as (F & _ & E). split; [apply ffin_spec; exact F|]. pose proof (app_bound _ _ _ _ (conj F E) L). lra.
    + split; [reflexivity|]. rewrite fv_1, Rabs_R1. lra.
  - intros x F H. assert (C : 0.005 <= cos (fval x)).
    { assert (Q : cos (fval x) = cos (Rabs (fval x))) by (unfold Rabs; destruct (Rcase_abs (fval x)); [symmetry; apply cos_neg|reflexivity]). rewrite Q.
      pose proof (Rabs_pos (fval x)). assert (K : cos 1.56 <= cos (Rabs (fval x))) by (apply cos_decr_1; lra).
      assert (W : cos 1.56 = sin (PI / 2 - 1.56)) by (rewrite sin_shift; reflexivity). pose proof (sin_half (PI / 2 - 1.56) ltac:(lra)) as S. lra. }
    pose proof (tan_one (fval x) 0.005 ltac:(lra) C) as T. unfold rounded_tan. destruct (Rle_dec (Rabs (tan (fval x))) 1000) as [L|L]; [|exfalso; lra].
    destruct (N _ L) as (_ & _ & E). pose proof (Rabs_pos (tan (fval x))). lra.
  - intros x F H. unfold rounded_acos. set (m := Rmin (acos (fval x)) (fval np_pi)).
    pose proof (acos_bound (fval x)) as AB. pose proof PI_close as PC. apply Flocq.Core.Raux.Rabs_le_inv in PC.
    assert (M : 0 <= m <= fval np_pi /\ Rabs (m - acos (fval x)) <= 2 / 10 ^ 16).
    { unfold m, Rmin. destruct (Rle_dec (acos (fval x)) (fval np_pi)); split; try lra; [rewrite Rminus_diag_eq, Rabs_R0 by reflexivity; lra|apply Rabs_le; lra]. }
    destruct M as [M1 M2]. destruct (N m) as (FM & VM & EM); [rewrite Rabs_pos_eq; lra|]. split; [apply ffin_spec; exact FM|]. split.
    + rewrite VM. split; [apply rnd_nonneg; lra|apply rnd_le_fval; lra].
    + rewrite (Rabs_pos_eq m) in EM by lra. replace (fval (float_of_R m) - acos (fval x)) with ((fval (float_of_R m) - m) + (m - acos (fval x))) by ring. eapply Rle_trans; [apply Rabs_triang|lra].
Qed.
(** at 45 north the sun rises and sets on every day *)
Example C126_near_met doy : (1 <= doy <= 366)%Z -> Rabs (rise_cos (decl_R doy) 45) <= 0.999.
Proof.
  intro HD. destruct C126_functions_exist as (GS & GC & GT & _). destruct (tan_decl rounded_sin rounded_cosine rounded_tan GS GC GT doy HD) as [_ T].
  unfold rise_cos. replace (45 * (PI / 180)) with (PI / 4) by lra. rewrite tan_PI4. replace (- (1) * tan (decl_R doy)) with (- tan (decl_R doy)) by ring. rewrite Rabs_Ropp. lra.
Qed.
(** on 21 June it does not set at 89 north and does not rise at 89 south *)
Example C126_polar_met : rise_cos (decl_R 172) 89 < -1 - 1 / 10 ^ 10 /\ 1 + 1 / 10 ^ 10 < rise_cos (decl_R 172) (-89).
Proof.
  pose proof pi_bounds as P.
  assert (D : 0.17 <= decl_R 172 <= 0.44).
  { unfold decl_R. cbv zeta. set (a := decl_angle 172).
    assert (S : 0.86 <= sin a).
    { replace (sin a) with (cos (PI / 2 - a)) by apply cos_shift. apply cos_small. unfold a, decl_angle. apply Rabs_le. lra. }
    pose proof (COS_bound a). pose proof (SIN_bound a). pose proof (COS_bound (2 * a)). pose proof (SIN_bound (2 * a)). pose proof (COS_bound (3 * a)). pose proof (SIN_bound (3 * a)).
    match goal with |- _ <= ?x * _ <= _ => assert (X : 18 <= x <= 25.061) by lra; generalize dependent x end; intros y Y. clearbody a.
    split; [apply Rle_trans with (18 * (3.1415 / 180)); [lra|apply Rmult_le_compat; lra]|apply Rle_trans with (25.061 * (3.1416 / 180)); [apply Rmult_le_compat; lra|lra]]. }
  assert (T : 0.08 <= tan (decl_R 172)).
  { unfold tan. pose proof (sin_half (decl_R 172) ltac:(lra)) as S. pose proof (cos_small (decl_R 172) ltac:(rewrite Rabs_pos_eq; lra)) as C. pose proof (COS_bound (decl_R 172)) as CB.
    apply Rmult_le_reg_r with (cos (decl_R 172)); [lra|]. unfold Rdiv. rewrite Rmult_assoc, Rinv_l by lra. nra. }
  assert (L : 28 <= tan (89 * (PI / 180))).
  { unfold tan. replace (89 * (PI / 180)) with (PI / 2 - PI / 180) by lra. rewrite sin_shift, cos_shift.
    pose proof (sin_half (PI / 180) ltac:(lra)) as S. pose proof (cos_small (PI / 180) ltac:(rewrite Rabs_pos_eq; lra)) as C.
    pose proof (sin_lipschitz (PI / 180) 0) as SL. rewrite sin_0, !Rminus_0_r, !Rabs_pos_eq in SL by lra.
    apply Rmult_le_reg_r with (sin (PI / 180)); [lra|]. unfold Rdiv. rewrite Rmult_assoc, Rinv_l by lra. lra. }
  unfold rise_cos. replace (-89 * (PI / 180)) with (- (89 * (PI / 180))) by lra. rewrite tan_neg.
  assert (28 * 0.08 <= tan (89 * (PI / 180)) * tan (decl_R 172)) by (apply Rmult_le_compat; lra). lra.
Qed.
