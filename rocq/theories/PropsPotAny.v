(** Property C125: potential radiation in binary64 arithmetic. *)
From Coq Require Import ZArith List Bool Lia Reals Lra Floats.
From Flocq Require Import Core.
From Verif Require Import Num Cal Series Trans RadModel SpecBase SpecUtil SpecRad F64 CascadeFloat CascadeRound FiveRound CourseRound SpecSineRound ErrCalc SineRound
  PropsSineRound PotAnyModel SpecPotAny RadAny RadPot CalProofs PropsRad PotAny.
Import ListNotations.
Open Scope R_scope.

(** the formulas are those of the other properties *)
Theorem C125_same doy h mi lon lat tz slope az cl :
  pot_any xpi xsin xcos xasin xacos doy h mi lon lat tz slope az cl = potential_radiation1 doy h mi lon lat tz slope az cl.
Proof. reflexivity. Qed.
Print Assumptions C125_same.
Theorem C125_same_series dates lon lat tz slope az cl :
  potential_any xpi xsin xcos xasin xacos dates lon lat tz slope az cl = potential_radiation dates lon lat tz slope az cl.
Proof. unfold potential_any, potential_radiation, potential_split. rewrite map_map. reflexivity. Qed.
Print Assumptions C125_same_series.

(** times of a calendar *)
Lemma civil_step y : (let f v := v / 400 * 146097 + (v mod 400 * 365 + v mod 400 / 4 - v mod 400 / 100) in
  (f y - f (y - 1) = 365 \/ f y - f (y - 1) = 366))%Z.
Proof.
  cbv zeta. assert (C : ((y mod 400 = 0 /\ (y - 1) mod 400 = 399 /\ (y - 1) / 400 = y / 400 - 1) \/
    (0 < y mod 400 /\ (y - 1) mod 400 = y mod 400 - 1 /\ (y - 1) / 400 = y / 400))%Z).
  { pose proof (Z.div_mod y 400 ltac:(lia)). pose proof (Z.mod_pos_bound y 400 ltac:(lia)). pose proof (Z.div_mod (y - 1) 400 ltac:(lia)). pose proof (Z.mod_pos_bound (y - 1) 400 ltac:(lia)). lia. }
  destruct C as [(E1 & E2 & E3)|(P & E2 & E3)]; rewrite E2, E3; [rewrite E1; right; change (399 / 4)%Z with 99%Z; change (399 / 100)%Z with 3%Z; change (0 / 4)%Z with 0%Z; change (0 / 100)%Z with 0%Z; lia|].
  clear E2 E3. pose proof (Z.mod_pos_bound y 400 ltac:(lia)) as B. generalize dependent (y mod 400)%Z. intros r P B.
  pose proof (Z.div_mod r 4 ltac:(lia)). pose proof (Z.mod_pos_bound r 4 ltac:(lia)). pose proof (Z.div_mod (r - 1) 4 ltac:(lia)). pose proof (Z.mod_pos_bound (r - 1) 4 ltac:(lia)).
  pose proof (Z.div_mod r 100 ltac:(lia)). pose proof (Z.mod_pos_bound r 100 ltac:(lia)). pose proof (Z.div_mod (r - 1) 100 ltac:(lia)). pose proof (Z.mod_pos_bound (r - 1) 100 ltac:(lia)).
  lia.
Qed.
Lemma doy_range d : (1 <= doy_of_day d <= 366)%Z.
Proof.
  pose proof (day_valid d) as [HM HD]. pose proof (civil_roundtrip d) as R. unfold doy_of_day.
  set (y := year_of_day d) in *. set (m := month_of_day d) in *. set (k := dom_of_day d) in *. clearbody y m k.
  pose proof (civil_step y) as S. cbv zeta in S.
  set (F := (y / 400 * 146097 + (y mod 400 * 365 + y mod 400 / 4 - y mod 400 / 100))%Z) in S.
  set (G := ((y - 1) / 400 * 146097 + ((y - 1) mod 400 * 365 + (y - 1) mod 400 / 4 - (y - 1) mod 400 / 100))%Z) in S.
  assert (O : day_of_civil y 1 1 = (G + 306 - 719468)%Z) by (unfold day_of_civil; cbv zeta; cbn [Z.leb Z.ltb Z.compare Pos.compare Pos.compare_cont]; change ((153 * (1 + 9) + 2) / 5)%Z with 306%Z; unfold G; lia).
  assert (T : day_of_civil y m k = ((if m <=? 2 then G else F) + (153 * (if 2 <? m then m - 3 else m + 9) + 2) / 5 + k - 1 - 719468)%Z).
  { unfold day_of_civil. cbv zeta. destruct (m <=? 2)%Z; unfold F, G; lia. }
  rewrite O. rewrite T in R. clear O T. clearbody F G.
  assert (K : (m = 1 \/ m = 2 \/ m = 3 \/ m = 4 \/ m = 5 \/ m = 6 \/ m = 7 \/ m = 8 \/ m = 9 \/ m = 10 \/ m = 11 \/ m = 12)%Z) by lia.
  unfold days_in_month in HD.
  destruct K as [E|[E|[E|[E|[E|[E|[E|[E|[E|[E|[E|E]]]]]]]]]]]; subst m; cbn [Z.leb Z.ltb Z.compare Pos.compare Pos.compare_cont] in R;
    cbn [Z.eqb Pos.eqb orb andb] in HD; match type of R with context [((153 * ?a + 2) / 5)%Z] => let v := eval vm_compute in ((153 * a + 2) / 5)%Z in change ((153 * a + 2) / 5)%Z with v in R end;
    try destruct (is_leap y); lia.
Qed.
Lemma time_range t : (0 <= hour_of t < 24)%Z /\ (0 <= minute_of t < 60)%Z.
Proof.
  pose proof (tod_range t) as R. pose proof (Z.mod_pos_bound (tod t) us_hour ltac:(reflexivity)) as M. unfold hour_of, minute_of.
  assert (U : (us_day = 24 * us_hour /\ us_hour = 60 * us_minute /\ 0 < us_minute)%Z) by (repeat split).
  split; split; try (apply Z.div_pos; lia); apply Z.div_lt_upper_bound; lia.
Qed.

(** flat terrain: the diffuse part is always a number next to the exact one, the direct part either such a number or not a number *)
Theorem C125_flat sinf cosf asinf acosf doy h mi lon lat tz az cl :
  good_sine sinf -> good_cosine cosf -> exact_at_0 sinf cosf -> bounded_by_1 sinf -> bounded_by_1 cosf ->
  (1 <= doy <= 366)%Z -> (0 <= h < 24)%Z -> (0 <= mi < 60)%Z -> degrees lon -> degrees lat -> zone tz -> cloudiness cl ->
  let p := pot_any np_pi sinf cosf asinf acosf doy h mi lon lat tz 0%float az cl in
  let c := Rmax 0 (sun_height doy h mi (fval lon) (fval lat) (fval tz)) in
  (is_nan (fst p) = true \/ within (1 / 10 ^ 9) (fst p) (1367 * sun_ratio doy * ((0.6 + 0.2 * c) * (1 - fval cl)) * c)) /\
  within (1 / 10 ^ 9) (snd p) (1367 * sun_ratio doy * ((0.3 + 0.1 * c) * fval cl) * c) /\
  (is_nan (fst p + snd p)%float = true \/
   within (1 / 10 ^ 9) (fst p + snd p)%float (1367 * sun_ratio doy * ((0.6 + 0.2 * c) * (1 - fval cl) + (0.3 + 0.1 * c) * fval cl) * c)).
Proof.
  intros GS GC E0 BS BC HD HH HM HLo HLa HZ HC p c.
  pose proof (diffuse_near sinf cosf asinf acosf GC GS doy h mi lon lat tz az cl HD HH HM HLo HLa HZ HC) as DF. fold p in DF.
  assert (W : forall x r e A, apb x r e A -> e <= 1 / 10 ^ 9 -> within (1 / 10 ^ 9) x r).
  { intros x r e A [[F E] _] L. split; [apply ffin_spec; exact F|lra]. }
  destruct (is_nan (fst p)) eqn:N.
  - split; [left; reflexivity|]. split; [apply (W _ _ _ _ DF); lra|]. left. apply nan_add. left. exact N.
  - assert (N1 : is_nan (sinf (acosf (height_any np_pi sinf cosf doy h mi lon lat tz))) = false).
    { destruct (is_nan (sinf (acosf (height_any np_pi sinf cosf doy h mi lon lat tz)))) eqn:Q; [|reflexivity].
      rewrite <- N. symmetry. apply (direct_nan sinf cosf asinf acosf GC GS E0 BS BC doy h mi lon lat tz az cl HD HH HM HLo HLa HZ HC). left. exact Q. }
    assert (N2 : is_nan (facing_any np_pi sinf cosf asinf acosf doy h mi lon lat tz az) = false).
    { destruct (is_nan (facing_any np_pi sinf cosf asinf acosf doy h mi lon lat tz az)) eqn:Q; [|reflexivity].
      rewrite <- N. symmetry. apply (direct_nan sinf cosf asinf acosf GC GS E0 BS BC doy h mi lon lat tz az cl HD HH HM HLo HLa HZ HC). right. exact Q. }
    pose proof (direct_near sinf cosf asinf acosf GC GS E0 BS BC doy h mi lon lat tz az cl HD HH HM HLo HLa HZ HC N1 N2) as DD. fold p in DD.
    split; [right; apply (W _ _ _ _ DD); lra|]. split; [apply (W _ _ _ _ DF); lra|]. right.
    refine (W _ _ (7 / 10 ^ 10) 1700 _ _); [|lra].
    eapply b_eq; [eapply (b_add _ _ _ _ (4 / 10 ^ 10) (2 / 10 ^ 10) 1133 567); [exact DD|exact DF|lra..]|].
    unfold direct_R, diffuse_R, day_height. fold c. ring.
Qed.
Print Assumptions C125_flat.
(** against the result in exact arithmetic *)
Theorem C125_flat_exact sinf cosf asinf acosf dates lon lat tz az cl t v :
  good_sine sinf -> good_cosine cosf -> exact_at_0 sinf cosf -> bounded_by_1 sinf -> bounded_by_1 cosf ->
  degrees lon -> degrees lat -> zone tz -> cloudiness cl ->
  entry_of t (potential_any np_pi sinf cosf asinf acosf dates lon lat tz 0%float az cl) = Some v ->
  sun_height (doy_of_day (date_of t)) (hour_of t) (minute_of t) (fval lon) (fval lat) (fval tz) < 1 ->
  exists r, entry_of t (potential_radiation dates (Fin (fval lon)) (Fin (fval lat)) (Fin (fval tz)) (Fin 0) (Fin (fval az)) (Fin (fval cl))) = Some (Fin r) /\
    (is_nan v = true \/ within (1 / 10 ^ 9) v r).
Proof.
  intros GS GC E0 BS BC HLo HLa HZ HC EV HH.
  assert (HI : In t dates /\ v = (fst (pot_any np_pi sinf cosf asinf acosf (doy_of_day (date_of t)) (hour_of t) (minute_of t) lon lat tz 0%float az cl)
                                + snd (pot_any np_pi sinf cosf asinf acosf (doy_of_day (date_of t)) (hour_of t) (minute_of t) lon lat tz 0%float az cl))%float).
  { revert EV. unfold potential_any. induction dates as [|u l IH]; cbn [map entry_of In]; [discriminate|].
    destruct (Z.eqb_spec u t) as [->|NE]; [intro E; injection E as <-; split; [left; reflexivity|reflexivity]|]. intro E. destruct (IH E). tauto. }
  destruct HI as [HI ->]. set (doy := doy_of_day (date_of t)) in *. pose proof (doy_range (date_of t)) as DR. fold doy in DR.
  destruct (time_range t) as [HR MR]. set (hh := hour_of t) in *. set (mm := minute_of t) in *.
  pose proof (pot_flat doy hh mm (fval lon) (fval lat) (fval tz) (fval az) (fval cl) HH) as PF. cbv zeta in PF. unfold day_height in PF.
  destruct (C125_flat sinf cosf asinf acosf doy hh mm lon lat tz az cl GS GC E0 BS BC DR HR MR HLo HLa HZ HC) as (_ & _ & D). cbv zeta in D.

  set (c := Rmax 0 (sun_height doy hh mm (fval lon) (fval lat) (fval tz))) in *.
  assert (CB : 0 <= c <= 1) by (pose proof (day_height_bound doy hh mm (fval lon) (fval lat) (fval tz)) as DB; exact DB).
  exists (1367 * sun_ratio doy * ((0.6 + 0.2 * c) * (1 - fval cl) + (0.3 + 0.1 * c) * fval cl) * c). split; [|exact D].
  apply C43_sum. split; [exact HI|]. fold doy hh mm. rewrite PF. cbn [fst snd]. rewrite xadd_Fin. f_equal.
  pose proof (sun_ratio_bounds doy) as RB. destruct HC as [_ HC].
  rewrite Rmax_right; [ring|]. repeat apply Rmult_le_pos; lra.
Qed.
Print Assumptions C125_flat_exact.

(** when the direct part is not a number: exactly when the sine of the zenith angle or the cosine of the azimuth is not *)
Theorem C125_nan sinf cosf asinf acosf doy h mi lon lat tz az cl :
  good_sine sinf -> good_cosine cosf -> exact_at_0 sinf cosf -> bounded_by_1 sinf -> bounded_by_1 cosf ->
  (1 <= doy <= 366)%Z -> (0 <= h < 24)%Z -> (0 <= mi < 60)%Z -> degrees lon -> degrees lat -> zone tz -> cloudiness cl ->
  (is_nan (fst (pot_any np_pi sinf cosf asinf acosf doy h mi lon lat tz 0%float az cl)) = true <->
   is_nan (sinf (acosf (height_any np_pi sinf cosf doy h mi lon lat tz))) = true \/
   is_nan (facing_any np_pi sinf cosf asinf acosf doy h mi lon lat tz az) = true).
Proof. intros. apply direct_nan; assumption. Qed.
Print Assumptions C125_nan.

(** flat terrain with the sun below the horizon: exactly nothing (or the direct part is not a number) *)
Theorem C125_night sinf cosf asinf acosf doy h mi lon lat tz az cl :
  good_sine sinf -> good_cosine cosf -> exact_at_0 sinf cosf -> bounded_by_1 sinf -> bounded_by_1 cosf ->
  (1 <= doy <= 366)%Z -> (0 <= h < 24)%Z -> (0 <= mi < 60)%Z -> degrees lon -> degrees lat -> zone tz -> cloudiness cl ->
  sun_height doy h mi (fval lon) (fval lat) (fval tz) <= - (1 / 10 ^ 12) ->
  let p := pot_any np_pi sinf cosf asinf acosf doy h mi lon lat tz 0%float az cl in
  (is_nan (fst p) = true \/ (fst p =? 0)%float = true) /\ (snd p =? 0)%float = true.
Proof.
  intros GS GC E0 BS BC HD HH HM HLo HLa HZ HC HN p.
  destruct (night_pot sinf cosf asinf acosf GC GS E0 BS BC doy h mi lon lat tz az cl HD HH HM HLo HLa HZ HC HN) as [A [F V]]. fold p in A, F, V.
  assert (F0 : ffin 0%float) by (unfold ffin; vm_compute; reflexivity). assert (V0 : fval 0%float = 0) by (unfold fval; vm_compute; lra).
  split; [|apply (eqb_true _ _ F F0); lra]. destruct A as [N|[FA VA]]; [left; exact N|right; apply (eqb_true _ _ FA F0); lra].
Qed.
Print Assumptions C125_night.

(** any terrain, any time and place, whatever the arc functions return: never negative and never infinite *)
Theorem C125_any_terrain sinf cosf asinf acosf doy h mi lon lat tz slope az cl :
  bounded_by_1 sinf -> bounded_by_1 cosf -> cloudiness cl ->
  let p := pot_any np_pi sinf cosf asinf acosf doy h mi lon lat tz slope az cl in
  (is_nan (fst p) = true \/ up_to 6500 (fst p)) /\ (is_nan (snd p) = true \/ up_to 2200 (snd p)).
Proof.
  intros BS BC HC p. destruct (terrain_range sinf cosf asinf acosf BS BC doy h mi lon lat tz slope az cl HC) as [A B]. fold p in A, B.
  split; [destruct A as [N|[F R]]|destruct B as [N|[F R]]]; try (left; exact N); right; (split; [apply ffin_spec; exact F|lra]).
Qed.
Print Assumptions C125_any_terrain.

(** correctly rounded functions meet what is asked; 1 July 2022, noon, 47.5 north, 11.25 east *)
Definition rounded_sin (x : float) : float := if PrimFloat.is_finite x then float_of_R (sin (fval x)) else nan.
Definition rounded_cosine (x : float) : float := if PrimFloat.is_finite x then float_of_R (cos (fval x)) else nan.
Lemma rounded_unit r : Rabs r <= 1 -> PrimFloat.is_finite (float_of_R r) = true /\ Rabs (fval (float_of_R r)) <= 1 /\ Rabs (fval (float_of_R r) - r) <= 1 / 10 ^ 15.
Proof.
  intro CB. destruct (float_of_R_val _ CB) as [FC VC]. split; [apply ffin_spec; exact FC|]. rewrite VC. split.
  - apply Flocq.Core.Raux.Rabs_le_inv in CB. apply Rabs_le. split.
    + apply Rle_trans with (fval (-1)%float); [rewrite fv_m1; lra|]. apply rnd_ge_fval. rewrite fv_m1. lra.
    + apply Rle_trans with (fval 1%float); [|rewrite fv_1; lra]. apply rnd_le_fval. rewrite fv_1. lra.
  - pose proof (rnd_err r) as R. pose proof eta_tiny as E. unfold u64 in R. lra.
Qed.
Example C125_functions_exist : good_sine rounded_sin /\ good_cosine rounded_cosine /\ exact_at_0 rounded_sin rounded_cosine /\
  bounded_by_1 rounded_sin /\ bounded_by_1 rounded_cosine.
Proof.
  assert (SB : forall x, Rabs (sin x) <= 1) by (intro; apply Rabs_le, SIN_bound). assert (CB : forall x, Rabs (cos x) <= 1) by (intro; apply Rabs_le, COS_bound).
  split; [|split; [|split; [|split]]].
  - intros x F _. unfold rounded_sin. rewrite F. apply rounded_unit, SB.
  - intros x F _. unfold rounded_cosine. rewrite F. apply rounded_unit, CB.
  - assert (F0 : ffin 0%float) by (unfold ffin; vm_compute; reflexivity). assert (F1 : ffin 1%float) by (unfold ffin; vm_compute; reflexivity).
    assert (FI : PrimFloat.is_finite 0%float = true) by (vm_compute; reflexivity).
    unfold exact_at_0, rounded_sin, rounded_cosine. rewrite FI, fv_0, sin_0, cos_0.
    destruct (float_of_R_val 0) as [G0 W0]; [rewrite Rabs_R0; lra|]. destruct (float_of_R_val 1) as [G1 W1]; [rewrite Rabs_R1; lra|].
    split; [apply (eqb_true _ _ G0 F0); rewrite W0, fv_0; apply rnd_0|apply (eqb_true _ _ G1 F1); rewrite W1, <- fv_1; apply rnd_fval].
  - intro x. unfold rounded_sin. destruct (PrimFloat.is_finite x); [right|left; reflexivity]. destruct (rounded_unit (sin (fval x)) (SB _)) as (A & B & _). auto.
  - intro x. unfold rounded_cosine. destruct (PrimFloat.is_finite x); [right|left; reflexivity]. destruct (rounded_unit (cos (fval x)) (CB _)) as (A & B & _). auto.
Qed.
Example C125_met : degrees 11.25%float /\ degrees 47.5%float /\ zone 1%float /\ cloudiness 0.25%float /\ (1 <= doy_of_day 19174 <= 366)%Z /\ doy_of_day 19174 = 182%Z.
Proof.
  assert (V1 : fval 11.25%float = 11.25) by (unfold fval; vm_compute; lra). assert (V2 : fval 47.5%float = 47.5) by (unfold fval; vm_compute; lra).
  assert (V3 : fval 0.25%float = 0.25) by (unfold fval; vm_compute; lra).
  unfold degrees, zone, cloudiness. rewrite V1, V2, V3, fv_1. rewrite !Rabs_pos_eq by lra.
  split; [split; [reflexivity|lra]|]. split; [split; [reflexivity|lra]|]. split; [split; [reflexivity|lra]|]. split; [split; [reflexivity|lra]|].
  split; [apply doy_range|reflexivity].
Qed.
(** the sun well below the horizon: midnight on the equator at the solstice *)
Example C125_night_met : sun_height 173 0 0 0 0 0 <= - (1 / 10 ^ 12).
Proof.
  unfold sun_height, sun_decl, sun_hour_angle. replace (2 * PI * (173 - 173) / 365.25) with 0 by lra. rewrite cos_0.
  replace (PI * ((0 + 0 / 60 + (0 - 0 * 15) / 15) / 12 - 1)) with (- PI) by lra. rewrite cos_neg, cos_PI, Rmult_0_l, sin_0, cos_0.
  assert (L : cos (PI / 3) <= cos (23.43697 * (PI / 180) * 1)) by (pose proof PI_RGT_0; apply cos_decr_1; lra). rewrite cos_PI3 in L. lra.
Qed.

