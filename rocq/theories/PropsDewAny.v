(** Property C128: hourly humidity with a linear course of the dew point in binary64 arithmetic. *)
From Coq Require Import ZArith List Bool Lia Reals Lra Floats String.
From Flocq Require Import Core.
From Verif Require Import Py Num Cal Series Trans UtilModel UtilModel2 Frame HumModel SpecBase SpecUtil SpecCourseRound SpecHumRound DaysProofs IndexProofs EqualProofs HumProofs
  F64 CascadeFloat CascadeRound FiveRound AggRound CourseRound SpecSineRound ErrCalc SineRound ScaleRound HumRound PropsHumRound
  PropsSineRound SpecPotAny PotAny SunAny PropsRadAny PropsPotAny SpecHumMean HumMean PropsHumMean VapAnyModel SpecVapAny VapAny PropsVapAny DewAnyModel SpecDewAny DewAny.
Import ListNotations.
Open Scope R_scope.

(** the wave is that of the other properties *)
Theorem C128_same : wave_any xpi xsin = wave_x.
Proof. reflexivity. Qed.
Print Assumptions C128_same.

Lemma course_humidity expf t T x : good_exponential expf -> air t -> air x -> 151 <= T <= 399 -> Rabs (fval t - T) <= 1 / 10 ^ 11 ->
  Rabs (rel_humidity (saturation_any expf t) (saturation_any expf x) - Rmin 100 (100 * saturation_at T / saturation_R (thawing x) (fval x))) <= 15 / 10 ^ 10.
Proof.
  intros GE A X HT E. pose proof (humidity_near expf t x GE A X) as H. pose proof (saturation_phase t T A HT E) as S. pose proof (saturation_range t A) as B. pose proof (saturation_range x X) as BX.
  unfold humidity_R in H. set (p := saturation_R (thawing t) (fval t)) in *. set (s := saturation_R (thawing x) (fval x)) in *. set (q := saturation_at T) in *.
  assert (Q0 : 0 < q) by (unfold q, saturation_at, saturation_R; pose proof (exp_pos (magnus (if Rle_dec 273.15 T then true else false) T)); lra).
  clearbody p s q. apply Flocq.Core.Raux.Rabs_le_inv in S. assert (IS : 0 < / s) by (apply Rinv_0_lt_compat; lra).
  assert (Q1 : 0 < 100 * q / s) by (apply Rmult_lt_0_compat; lra).
  pose proof (min_ratio (100 * q / s) (100 * p / s) (14 / 10 ^ 12) Q1 ltac:(lra)) as M.
  assert (K : 100 * q / s * (1 - 14 / 10 ^ 12) <= 100 * p / s <= 100 * q / s * (1 + 14 / 10 ^ 12)).
  { replace (100 * q / s * (1 - 14 / 10 ^ 12)) with (100 * (q * (1 - 14 / 10 ^ 12)) * / s) by (unfold Rdiv; ring). replace (100 * q / s * (1 + 14 / 10 ^ 12)) with (100 * (q * (1 + 14 / 10 ^ 12)) * / s) by (unfold Rdiv; ring).
    unfold Rdiv at 2 3. split; apply Rmult_le_compat_r; lra. }
  specialize (M K). apply Flocq.Core.Raux.Rabs_le_inv in M, H. apply Rabs_le. lra.
Qed.
Theorem C128_linear expf sinf e (d : dframe float) d0 n tmin (temp : series float) a0 a1 kr mhp :
  good_exponential expf -> good_sine sinf ->
  n <> O -> f_index d = daily_index d0 n -> assoc "tmin" (f_cols d) = Some tmin -> List.length tmin = n -> map fst temp = hours_index d0 n ->
  coefficient 1000 a0 -> coefficient 5 a1 -> kr = 6%Z \/ kr = 12%Z ->
  exists out, disaggregate_humidity_gen (saturation_any expf) (wave_any np_pi sinf) e d "linear_dewpoint_variation" (Some temp) (Some a0) (Some a1) (Some kr) mhp false = Ok out /\
    map fst out = hours_index d0 n /\
    forall i m m', nth_error tmin i = Some m -> day_after tmin i = Some m' -> air m -> air m' ->
      let ts := values_on (d0 + Z.of_nat i) temp in
      let vs := values_on (d0 + Z.of_nat i) out in
      List.length ts = 24%nat /\ List.length vs = 24%nat /\
      forall h x v, nth_error ts h = Some x -> nth_error vs h = Some v -> air x ->
        let td := dew_course (fval a0) (fval a1) kr (fval m) (fval m') h in
        151 <= td <= 399 ->
        percent v /\ Rabs (fval v - Rmin 100 (100 * saturation_at td / saturation_R (thawing x) (fval x))) <= 2 / 10 ^ 9.
Proof.
  intros GE GS NE FI C L ET C0 C1 HK. destruct (linear_function (saturation_any expf) (wave_any np_pi sinf) e d0 n tmin temp a0 a1 kr nan_float NE L ET HK) as (raw & EH & EI & V).
  eexists. split.
  { unfold disaggregate_humidity_gen. cbn [existsb String.eqb Ascii.eqb Bool.eqb orb negb]. unfold raw_humidity. cbn [String.eqb Ascii.eqb Bool.eqb orb].
    rewrite (fcol_daily d d0 n _ _ FI C L). cbv beta iota delta [bind]. try change (String.eqb "linear_dewpoint_variation" "linear_dewpoint_variation") with true.
    refine (eq_trans (f_equal (fun r => match r with Ok a => Ok (map (fun p : Z * float => (fst p, clip1 n0 (n_ofZ 100) (snd p))) a) | Err x => Err x end) EH) _). reflexivity. }
  split; [rewrite map_map; exact EI|]. intros i m m' Hm Hm' AM AM' ts vs.
  assert (NN : forall k, air k -> n_isnan (a0 + a1 * k)%num = false).
  { intros k [FK BK]. apply finite_valid. assert (X1 : apb a1 (fval a1) 0 5) by (apply b_exact; apply C1). assert (X0 : apb a0 (fval a0) 0 1000) by (apply b_exact; apply C0).
    assert (XK : apb k (fval k) 0 400) by (apply b_exact; [exact FK|rewrite Rabs_pos_eq; lra]).
    pose proof (b_mul _ _ _ _ _ _ _ _ (25 / 10 ^ 14) 2000 X1 XK ltac:(lra) ltac:(lra) ltac:(lra)) as P1.
    pose proof (b_add _ _ _ _ _ _ _ _ (62 / 10 ^ 14) 3000 X0 P1 ltac:(lra) ltac:(lra) ltac:(lra)) as S1. exact (proj1 (proj1 S1)). }
  destruct (V i m m' Hm Hm' (NN m AM) (NN m' AM')) as (L1 & L2 & W). split; [exact L1|]. unfold vs. rewrite clip_values. split; [rewrite map_length; exact L2|].
  intros h x v HX HV AX HT. set (td := dew_course (fval a0) (fval a1) kr (fval m) (fval m') h) in *. assert (Hh : (h < 24)%nat) by (rewrite <- L1; apply nth_error_Some; unfold ts in HX; congruence).
  rewrite nth_error_map, (W h x HX) in HV. cbn [option_map] in HV.
  fold (dew_any sinf a0 a1 m m' kr h) in HV. set (t := dew_any sinf a0 a1 m m' kr h) in *. 
  destruct (dew_course_near sinf GS a0 a1 m m' kr h C0 C1 AM AM' Hh HK) as [FT ET']. fold t td in FT, ET'.
  assert (AT : air t) by (split; [apply ffin_spec; exact FT|apply Flocq.Core.Raux.Rabs_le_inv in ET'; lra]).
  destruct (dew_day (saturation_any expf) (saturation_any expf t) [x] [saturated (saturation_any expf t) (saturation_any expf x)]) as [R _].
  - intros y [<-|[]]. apply saturation_pressure; assumption.
  - apply saturation_pressure; assumption.
  - reflexivity.
  - assert (EV : v = saturated (saturation_any expf t) (saturation_any expf x)) by (apply (f_equal (fun o => match o with Some y => y | None => v end)) in HV; symmetry; exact HV). subst v.
    destruct (R O x _ eq_refl eq_refl) as [P D]. split; [exact P|]. pose proof (course_humidity expf t td x GE AT AX HT ET') as K.
    apply Flocq.Core.Raux.Rabs_le_inv in D, K. apply Rabs_le. lra.
Qed.
Print Assumptions C128_linear.

(** ** the hypotheses can be met *)
Example C128_met : exists expf sinf, good_exponential expf /\ good_sine sinf /\ coefficient 1000 0 /\ coefficient 5 1 /\
  f_index ex_cold = daily_index 19000 1 /\ assoc "tmin" (f_cols ex_cold) = Some [280%float] /\ day_after [280%float] 0 = Some 280%float /\ air 280 /\
  map fst ex_warmer = hours_index 19000 1 /\ Forall air (values_on 19000 ex_warmer) /\
  forall h, (h < 24)%nat -> 151 <= dew_course (fval 0%float) (fval 1%float) 12 (fval 280%float) (fval 280%float) h <= 399.
Proof.
  exists rounded_exp, rounded_sin. split; [exact (proj1 C127_functions_exist)|]. split; [exact (proj1 C125_functions_exist)|].
  assert (V1 : fval 1%float = 1) by (unfold fval; vm_compute; lra). assert (V2 : fval 280%float = 280) by (unfold fval; vm_compute; lra).
  split; [split; [reflexivity|change (fval 0%float) with 0; rewrite Rabs_R0; lra]|]. split; [split; [reflexivity|rewrite V1, Rabs_R1; lra]|].
  split; [reflexivity|]. split; [reflexivity|]. split; [reflexivity|]. destruct C127_met as (_ & _ & _ & _ & _ & I & F & A). split; [exact A|]. split; [exact I|]. split; [exact F|].
  intros h Hh. unfold dew_course. rewrite V1, V2. change (fval 0%float) with 0. pose proof (SIN_bound ((INR h + 1) * PI / IZR 12 - 3 * PI / 4)) as S. rewrite (Rminus_diag_eq (1 * 280)) by reflexivity. lra.
Qed.
