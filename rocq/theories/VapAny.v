(** Vapour pressure and dew point in binary64. *)
From Coq Require Import ZArith List Bool Lia Reals Lra Floats.
From Flocq Require Import Core IEEE754.BinarySingleNaN IEEE754.PrimFloat.
From Verif Require Import Num F64 CascadeFloat CascadeRound FiveRound AggRound CourseRound SpecSineRound ErrCalc SineRound
  PotAny SunAny VapAnyModel SpecVapAny.
Import ListNotations.
Open Scope R_scope.

(** ** reals *)
Lemma exp_nat n : exp (INR n) = exp 1 ^ n.
Proof. induction n as [|n IH]; [cbn; apply exp_0|]. rewrite S_INR, exp_plus, IH. cbn. ring. Qed.
Lemma exp_le_mono x y : x <= y -> exp x <= exp y.
Proof. intro H. destruct (Rle_lt_or_eq_dec _ _ H) as [L|<-]; [left; apply exp_increasing, L|lra]. Qed.
Lemma exp_up n x : x <= INR n -> exp x <= 3 ^ n.
Proof. intro H. eapply Rle_trans; [apply exp_le_mono, H|]. rewrite exp_nat. apply pow_incr. split; [left; apply exp_pos|exact exp_le_3]. Qed.
Lemma exp_down n x : - INR n <= x -> / 3 ^ n <= exp x.
Proof.
  intro H. replace (exp x) with (/ exp (- x)) by (rewrite exp_Ropp; field; pose proof (exp_pos x); lra).
  apply Rinv_le_contravar; [apply exp_pos|]. apply exp_up. lra.
Qed.
Lemma exp_near d : Rabs d <= 1 / 2 -> Rabs (exp d - 1) <= 2 * Rabs d.
Proof.
  intro H. pose proof (exp_ineq1_le d) as L. pose proof (exp_ineq1_le (- d)) as U. rewrite exp_Ropp in U. pose proof (exp_pos d) as P.
  assert (E : exp d * / exp d = 1) by (field; lra). unfold Rabs in *. destruct (Rcase_abs d); destruct (Rcase_abs (exp d - 1)); try nra.
Qed.
Lemma ln_near x r d : 0 < r -> 0 <= d <= 1 / 2 -> Rabs (x - r) <= d * r -> 0 < x /\ Rabs (ln x - ln r) <= 2 * d.
Proof.
  intros P D H. apply Flocq.Core.Raux.Rabs_le_inv in H. assert (X : 0 < x) by nra. split; [exact X|].
  assert (Q : ln x - ln r = ln (x / r)) by (unfold Rdiv; rewrite ln_mult, ln_Rinv by (try apply Rinv_0_lt_compat; lra); lra).
  assert (Y : 0 < x / r) by (apply Rdiv_lt_0_compat; lra).
  assert (Y1 : 1 - d <= x / r <= 1 + d).
  { assert (x / r * r = x) by (field; lra). split; nra. }
  rewrite Q. pose proof (exp_ineq1_le (ln (x / r))) as U. rewrite exp_ln in U by exact Y.
  pose proof (exp_ineq1_le (- ln (x / r))) as L. rewrite exp_Ropp, exp_ln in L by exact Y.
  assert (I : / (x / r) <= 1 + 2 * d).
  { apply Rmult_le_reg_r with (x / r); [exact Y|]. rewrite Rinv_l by lra. nra. }
  apply Rabs_le. lra.
Qed.

(** ** steps *)
Lemma b_div x y r s e f A D g C : apb x r e A -> app y s f -> 0 <= f -> D <= Rabs s -> 2 * f < D -> 1 <= D -> A + e <= 10 ^ 8 ->
  (e + 12 / 10 ^ 17 * (A + e)) / (D - f) + A * f / ((D - f) * D) + 1 / 10 ^ 20 <= g -> A / D <= C -> apb (x / y)%num (r / s) g C.
Proof.
  intros [X1 X2] [FY EY] F0 HD HF D1 H1 H2 H3. pose proof (Rabs_pos r) as P1. pose proof X1 as [_ EX]. pose proof (Rabs_pos (fval x - r)) as P2.
  pose proof cap_9. pose proof u64_tiny. pose proof eta_tiny as ET. pose proof eta64_pos as E0.
  assert (DY : D - f <= Rabs (fval y)).
  { pose proof (Rabs_triang_inv s (s - fval y)) as T. replace (s - (s - fval y)) with (fval y) in T by ring. rewrite (Rabs_minus_sym s) in T. lra. }
  assert (DP : 0 < D - f) by lra.
  assert (Y0 : fval y <> 0) by (intro Z; rewrite Z, Rabs_R0 in DY; lra). assert (S0 : s <> 0) by (intro Z; rewrite Z, Rabs_R0 in HD; lra).
  assert (IP : 0 < / (D - f)) by (apply Rinv_0_lt_compat; lra).
  assert (I2 : / (D - f) <= 2) by (replace 2 with (/ (1 / 2)) by lra; apply Rinv_le_contravar; lra).
  assert (Q : (A + e) / (D - f) <= 2 * 10 ^ 8).
  { unfold Rdiv. replace (2 * 10 ^ 8) with (10 ^ 8 * 2) by ring. apply Rmult_le_compat; lra. }
  split.
  - pose proof (app_div x y r e A (D - f) X1 X2 DP DY ltac:(lra)) as [FQ EQ]. split; [exact FQ|].
    replace (fval (x / y)%num - r / s) with ((fval (x / y)%float - r / fval y) + (r / fval y - r / s)) by (change (x / y)%num with (x / y)%float; ring).
    eapply Rle_trans; [apply Rabs_triang|].
    assert (Z : Rabs (r / fval y - r / s) <= A * f / ((D - f) * D)).
    { replace (r / fval y - r / s) with (r * (- (fval y - s)) * (/ fval y * / s)) by (field; split; assumption).
      unfold Rdiv. rewrite Rinv_mult. rewrite !Rabs_mult, Rabs_Ropp, !Rabs_inv.
      apply Rmult_le_compat; [apply Rmult_le_pos; apply Rabs_pos|apply Rmult_le_pos; left; apply Rinv_0_lt_compat; lra|apply Rmult_le_compat; try apply Rabs_pos; assumption|].
      apply Rmult_le_compat; [left; apply Rinv_0_lt_compat; lra..|apply Rinv_le_contravar; lra|apply Rinv_le_contravar; lra]. }
    assert (u64 * ((A + e) / (D - f)) <= 12 / 10 ^ 17 * ((A + e) / (D - f))) by (apply Rmult_le_compat_r; [apply Rmult_le_pos; lra|lra]).
    replace ((e + 12 / 10 ^ 17 * (A + e)) / (D - f)) with (e / (D - f) + 12 / 10 ^ 17 * ((A + e) / (D - f))) in H2 by (unfold Rdiv; ring). lra.
  - unfold Rdiv. rewrite Rabs_mult, Rabs_inv. eapply Rle_trans; [|exact H3]. unfold Rdiv.
    apply Rmult_le_compat; [apply Rabs_pos|left; apply Rinv_0_lt_compat; lra|exact X2|apply Rinv_le_contravar; lra].
Qed.
Lemma r_mul x y r s d f g : app x r (d * r) -> app y s (f * s) -> 0 <= r -> 0 <= s -> 0 <= d <= 1 -> 0 <= f <= 1 -> r * s <= 10 ^ 8 ->
  d + f + d * f + 12 / 10 ^ 17 * ((1 + d) * (1 + f)) <= g -> app (x * y)%num (r * s) (g * (r * s) + eta64).
Proof.
  intros HX HY R0 S0 D F B G. pose proof cap_9. pose proof u64_tiny. pose proof eta64_pos.
  assert (RS : 0 <= r * s) by (apply Rmult_le_pos; assumption).
  assert (M : (r + d * r) * (s + f * s) = (1 + d) * (1 + f) * (r * s)) by ring.
  assert (M1 : 0 <= (1 + d) * (1 + f) <= 4) by nra.
  eapply app_weaken; [apply (app_mul x y r s (d * r) (f * s) r s HX HY); [rewrite Rabs_pos_eq; lra..|rewrite M; nra]|].
  rewrite M.
  assert (K : u64 * ((1 + d) * (1 + f) * (r * s)) <= 12 / 10 ^ 17 * ((1 + d) * (1 + f) * (r * s))) by (apply Rmult_le_compat_r; [apply Rmult_le_pos; lra|lra]).
  assert (W : (d + f + d * f + 12 / 10 ^ 17 * ((1 + d) * (1 + f))) * (r * s) <= g * (r * s)) by (apply Rmult_le_compat_r; assumption).
  replace (d * r * (s + f * s) + r * (f * s)) with ((d + f + d * f) * (r * s)) by ring. lra.
Qed.

(** ** the formula *)
Lemma lit_6112 : ffin (lit 6112 3) /\ fval (lit 6112 3) = 3440750115311059 / 562949953421312.
Proof. split; [unfold ffin; vm_compute; reflexivity|unfold fval; vm_compute; lra]. Qed.
Lemma near_6112 : app (lit 6112 3) 6.112 (2 / 10 ^ 16 * 6.112).
Proof. destruct lit_6112 as [F V]. split; [exact F|]. rewrite V. apply Rabs_le. lra. Qed.
Lemma lit_freezing : (lit 27315 2 : float) = 0x1.1126666666666p+8%float.
Proof. vm_compute. reflexivity. Qed.
Lemma freezing_val : ffin 0x1.1126666666666p+8%float /\ 273.15 - 3 / 10 ^ 14 <= fval 0x1.1126666666666p+8%float <= 273.15.
Proof. split; [unfold ffin; vm_compute; reflexivity|]. assert (V : fval 0x1.1126666666666p+8%float = 2402652809016115 / 8796093022208) by (unfold fval; vm_compute; lra). rewrite V. lra. Qed.
Lemma warm_thawing t : warm_any t = thawing t.
Proof. unfold warm_any, thawing. rewrite lit_freezing. reflexivity. Qed.
Lemma thawing_range t : air t -> if thawing t then 273.15 - 3 / 10 ^ 14 <= fval t <= 400 else 150 <= fval t < 273.15.
Proof.
  intros [F B]. destruct freezing_val as [FF VF]. unfold thawing.
  pose proof (leb_true 0x1.1126666666666p+8%float t FF (proj2 (ffin_spec t) F)) as L. destruct (0x1.1126666666666p+8 <=? t)%float.
  - pose proof (proj1 L eq_refl). lra.
  - split; [lra|]. apply Rnot_le_lt. intro H. assert (false = true) by (apply L; lra). discriminate.
Qed.
Lemma offset_near t : air t -> apb (t - lit 27315 2)%num (fval t - 273.15) (13 / 10 ^ 14) (if thawing t then 127 else 124).
Proof.
  intro A. pose proof (thawing_range t A) as T. destruct A as [F B].
  assert (C : apb (lit 27315 2) 273.15 (4 / 10 ^ 14) 274) by (apply (b_eq _ (IZR 27315 / IZR (10 ^ 2))); [apply (b_lit 27315 2); num|num]).
  assert (X : apb t (fval t) 0 400) by (apply b_exact; [exact F|rewrite Rabs_pos_eq; lra]).
  destruct (b_sub _ _ _ _ _ _ _ _ (13 / 10 ^ 14) 700 X C ltac:(lra) ltac:(lra) ltac:(lra)) as [Y _].
  destruct (thawing t); (split; [exact Y|apply Rabs_le; lra]).
Qed.
Lemma exponent_near t : air t -> apb (exponent_any t) (magnus (thawing t) (fval t)) (7 / 10 ^ 14) 19.
Proof.
  intro A. pose proof (offset_near t A) as O. pose proof (thawing_range t A) as T. unfold exponent_any, magnus. rewrite warm_thawing. destruct (thawing t).
  - assert (L1 : apb (lit 1762 2) 17.62 (3 / 10 ^ 15) 18) by (apply (b_eq _ (IZR 1762 / IZR (10 ^ 2))); [apply (b_lit 1762 2); num|num]).
    assert (L2 : apb (lit 24312 2) 243.12 (4 / 10 ^ 14) 244) by (apply (b_eq _ (IZR 24312 / IZR (10 ^ 2))); [apply (b_lit 24312 2); num|num]).
    pose proof (b_mul _ _ _ _ _ _ _ _ (33 / 10 ^ 13) 2300 L1 O ltac:(lra) ltac:(lra) ltac:(lra)) as M.
    pose proof (b_add _ _ _ _ _ _ _ _ (3 / 10 ^ 13) 400 L2 O ltac:(lra) ltac:(lra) ltac:(lra)) as S.
    apply (b_div _ _ _ _ (33 / 10 ^ 13) (3 / 10 ^ 13) 2300 243); [exact M|exact (proj1 S)|lra|rewrite Rabs_pos_eq; lra|lra..].
  - assert (L1 : apb (lit 2246 2) 22.46 (3 / 10 ^ 15) 22.46) by (apply (b_eq _ (IZR 2246 / IZR (10 ^ 2))); [apply (b_lit 2246 2); num|num]).
    assert (L2 : apb (lit 27262 2) 272.62 (4 / 10 ^ 14) 273) by (apply (b_eq _ (IZR 27262 / IZR (10 ^ 2))); [apply (b_lit 27262 2); num|num]).
    pose proof (b_mul _ _ _ _ _ _ _ _ (4 / 10 ^ 12) 2800 L1 O ltac:(lra) ltac:(lra) ltac:(lra)) as M.
    pose proof (b_add _ _ _ _ _ _ _ _ (3 / 10 ^ 13) 400 L2 O ltac:(lra) ltac:(lra) ltac:(lra)) as S.
    apply (b_div _ _ _ _ (4 / 10 ^ 12) (3 / 10 ^ 13) 2800 149); [exact M|exact (proj1 S)|lra|rewrite Rabs_pos_eq; lra|lra..].
Qed.
Lemma magnus_range t : air t -> -19 <= magnus (thawing t) (fval t) <= (if thawing t then 6.1 else 0).
Proof.
  intro A. pose proof (proj2 (exponent_near t A)) as B. apply Flocq.Core.Raux.Rabs_le_inv in B. split; [lra|]. clear B. pose proof (thawing_range t A) as T.
  unfold magnus. destruct (thawing t).
  - set (q := 17.62 * (fval t - 273.15) / (243.12 + (fval t - 273.15))). assert (Q : q * (243.12 + (fval t - 273.15)) = 17.62 * (fval t - 273.15)) by (unfold q; field; lra).
    apply Rnot_lt_le. intro H. nra.
  - set (q := 22.46 * (fval t - 273.15) / (272.62 + (fval t - 273.15))). assert (Q : q * (272.62 + (fval t - 273.15)) = 22.46 * (fval t - 273.15)) by (unfold q; field; lra).
    apply Rnot_lt_le. intro H. nra.
Qed.
Lemma saturation_range t : air t -> 1 / 10 ^ 9 <= saturation_R (thawing t) (fval t) <= 2 * 10 ^ 4.
Proof.
  intro A. pose proof (magnus_range t A) as [L H]. unfold saturation_R.
  assert (I19 : INR 19 = 19) by (rewrite INR_IZR_INZ; reflexivity). assert (I7 : INR 7 = 7) by (rewrite INR_IZR_INZ; reflexivity).
  assert (D : / 3 ^ 19 <= exp (magnus (thawing t) (fval t))) by (apply exp_down; rewrite I19; lra).
  assert (U : exp (magnus (thawing t) (fval t)) <= 3 ^ 7) by (apply exp_up; rewrite I7; destruct (thawing t); lra).
  assert (1 / 10 ^ 9 <= 6.112 * / 3 ^ 19) by lra. assert (6.112 * 3 ^ 7 <= 2 * 10 ^ 4) by lra. lra.
Qed.

Section Open.
  Variables expf logf : float -> float.
  Hypothesis GE : good_exponential expf.

  Lemma expf_near t : air t -> app (expf (exponent_any t)) (exp (magnus (thawing t) (fval t))) (142 / 10 ^ 15 * exp (magnus (thawing t) (fval t))).
  Proof.
    intro A. destruct (exponent_near t A) as [M B]. pose proof (app_bound _ _ _ _ M B) as BM. destruct M as [F E]. set (m := magnus (thawing t) (fval t)) in *. set (x := exponent_any t) in *.
    destruct (GE x) as [F' E']; [apply ffin_spec; exact F|lra|]. split; [apply ffin_spec; exact F'|].
    pose proof (exp_near (fval x - m) ltac:(lra)) as N. pose proof (exp_pos m) as P.
    assert (X : exp (fval x) = exp m * exp (fval x - m)) by (rewrite <- exp_plus; f_equal; ring).
    assert (Y : Rabs (exp (fval x) - exp m) <= 14 / 10 ^ 14 * exp m).
    { rewrite X. replace (exp m * exp (fval x - m) - exp m) with (exp m * (exp (fval x - m) - 1)) by ring.
      rewrite Rabs_mult, (Rabs_pos_eq (exp m)) by lra. rewrite Rmult_comm. apply Rmult_le_compat_r; lra. }
    replace (fval (expf x) - exp m) with ((fval (expf x) - exp (fval x)) + (exp (fval x) - exp m)) by ring.
    eapply Rle_trans; [apply Rabs_triang|]. pose proof Y as Y'. apply Flocq.Core.Raux.Rabs_le_inv in Y'. lra.
  Qed.
  Definition es (t : float) : float := (lit 6112 3 * expf (exponent_any t))%num.
  Lemma es_near t : air t -> app (es t) (saturation_R (thawing t) (fval t)) (144 / 10 ^ 15 * saturation_R (thawing t) (fval t)).
  Proof.
    intro A. pose proof (expf_near t A) as E. pose proof (saturation_range t A) as B. unfold saturation_R in *. set (m := magnus (thawing t) (fval t)) in *. pose proof (exp_pos m) as P.
    pose proof (r_mul _ _ _ _ _ _ (143 / 10 ^ 15) near_6112 E ltac:(lra) ltac:(lra) ltac:(lra) ltac:(lra) ltac:(lra) ltac:(lra)) as M.
    eapply app_weaken; [exact M|]. pose proof eta64_small as ES. pose proof eta64_pos.
    assert (eta64 <= 1 / 10 ^ 30).
    { assert (1 / 10 ^ 300 <= 1 / 10 ^ 30); [|lra]. unfold Rdiv. rewrite !Rmult_1_l. apply Rinv_le_contravar; [apply pow_lt; lra|apply Rle_pow; [lra|lia]]. }
    lra.
  Qed.
  Lemma vapor_shape t h : vapor_any expf t h = (es t * h / n_ofZ 100)%num.
  Proof. reflexivity. Qed.
  Lemma vapor_near t h : air t -> humid h ->
    app (vapor_any expf t h) (saturation_R (thawing t) (fval t) * fval h / 100) (145 / 10 ^ 15 * (saturation_R (thawing t) (fval t) * fval h / 100) + 2 * eta64).
  Proof.
    intros A [FH BH]. rewrite vapor_shape. pose proof (es_near t A) as E. pose proof (saturation_range t A) as B. set (s := saturation_R (thawing t) (fval t)) in *.
    assert (H : app h (fval h) (0 * fval h)) by (rewrite Rmult_0_l; apply app_exact, ffin_spec, FH).
    assert (Q : 0 <= s * fval h <= 2 * 10 ^ 6) by (split; [apply Rmult_le_pos; lra|replace (2 * 10 ^ 6) with (2 * 10 ^ 4 * 100) by lra; apply Rmult_le_compat; lra]).
    pose proof (r_mul _ _ _ _ _ _ (1443 / 10 ^ 16) E H ltac:(lra) ltac:(lra) ltac:(lra) ltac:(lra) ltac:(lra) ltac:(lra)) as M.
    set (p := s * fval h) in *. destruct (ofZ_val 100 ltac:(lia)) as [F1 V1]. pose proof cap_9. pose proof u64_tiny. pose proof eta64_pos. pose proof eta_tiny.
    pose proof (app_div _ (n_ofZ 100) _ _ p 100 M ltac:(rewrite Rabs_pos_eq; lra) ltac:(lra) ltac:(rewrite V1, Rabs_pos_eq; lra) ltac:(lra)) as D.
    rewrite V1 in D. eapply app_weaken; [exact D|].
    assert (u64 * ((p + (1443 / 10 ^ 16 * p + eta64)) / 100) <= 12 / 10 ^ 17 * ((p + (1443 / 10 ^ 16 * p + eta64)) / 100)) by (apply Rmult_le_compat_r; lra). lra.
  Qed.
  Lemma es_pos t : air t -> ffin (es t) /\ 0 < fval (es t) <= 3 * 10 ^ 4.
  Proof.
    intro A. destruct (es_near t A) as [F E]. pose proof (saturation_range t A) as B. split; [exact F|]. apply Flocq.Core.Raux.Rabs_le_inv in E. lra.
  Qed.
  Lemma vapor_mono t h k : air t -> humid h -> humid k -> fval h <= fval k -> fval (vapor_any expf t h) <= fval (vapor_any expf t k).
  Proof.
    intros A [FH BH] [FK BK] L. rewrite !vapor_shape. destruct (es_pos t A) as [F P]. destruct (ofZ_val 100 ltac:(lia)) as [F1 V1]. apply ffin_spec in FH, FK.
    pose proof cap_9.
    assert (R1 : Rabs (fval (es t) * fval h) <= 100 * cap) by (rewrite Rabs_pos_eq; nra). assert (R2 : Rabs (fval (es t) * fval k) <= 100 * cap) by (rewrite Rabs_pos_eq; nra).
    destruct (fmul_correct _ h F FH (rnd_in_range _ R1)) as [E1 G1]. destruct (fmul_correct _ k F FK (rnd_in_range _ R2)) as [E2 G2].
    assert (L1 : fval (es t * h)%float <= fval (es t * k)%float) by (rewrite E1, E2; apply rnd_le; nra).
    assert (B1 : Rabs (fval (es t * h)%float) <= 10 ^ 7).
    { rewrite E1. pose proof (rnd_err (fval (es t) * fval h)) as R. pose proof u64_tiny. pose proof eta_tiny. rewrite (Rabs_pos_eq (_ * _)) in R by nra.
      assert (fval (es t) * fval h <= 3 * 10 ^ 6) by nra. assert (u64 * (fval (es t) * fval h) <= 1 * (3 * 10 ^ 6)) by (apply Rmult_le_compat; nra).
      apply Flocq.Core.Raux.Rabs_le_inv in R. apply Rabs_le. nra. }
    assert (B2 : Rabs (fval (es t * k)%float) <= 10 ^ 7).
    { rewrite E2. pose proof (rnd_err (fval (es t) * fval k)) as R. pose proof u64_tiny. pose proof eta_tiny. rewrite (Rabs_pos_eq (_ * _)) in R by nra.
      assert (fval (es t) * fval k <= 3 * 10 ^ 6) by nra. assert (u64 * (fval (es t) * fval k) <= 1 * (3 * 10 ^ 6)) by (apply Rmult_le_compat; nra).
      apply Flocq.Core.Raux.Rabs_le_inv in R. apply Rabs_le. nra. }
    apply Flocq.Core.Raux.Rabs_le_inv in B1, B2.
    assert (V100 : fval (n_ofZ 100 : float) = 100) by exact V1.
    destruct (fdiv_correct (es t * h)%float (n_ofZ 100) G1 ltac:(rewrite V100; lra)) as [D1 _]; [rewrite V100; apply rnd_in_range, Rabs_le; lra|].
    destruct (fdiv_correct (es t * k)%float (n_ofZ 100) G2 ltac:(rewrite V100; lra)) as [D2 _]; [rewrite V100; apply rnd_in_range, Rabs_le; lra|].
    change (fval (es t * h / n_ofZ 100)%float <= fval (es t * k / n_ofZ 100)%float). rewrite D1, D2, V100. apply rnd_le. lra.
  Qed.
  Lemma vapor_zero t h : air t -> PrimFloat.is_finite h = true -> fval h = 0 -> ffin (vapor_any expf t h) /\ fval (vapor_any expf t h) = 0.
  Proof.
    intros A FH H0. rewrite vapor_shape. destruct (es_pos t A) as [F P]. destruct (ofZ_val 100 ltac:(lia)) as [F1 V1]. apply ffin_spec in FH.
    assert (Z : fval (es t) * fval h = 0) by (rewrite H0; ring).
    destruct (fmul_correct _ h F FH) as [E1 G1]; [rewrite Z, round_0; [rewrite Rabs_R0; apply bpow_gt_0|apply valid_rnd_N]|]. rewrite Z in E1.
    assert (E0 : fval (es t * h)%float = 0) by (rewrite E1; apply round_0, valid_rnd_N).
    destruct (fdiv_correct (es t * h)%float (n_ofZ 100) G1) as [D1 D2]; [rewrite V1; lra|..].
    - rewrite E0, V1. replace (0 / 100) with 0 by lra. rewrite round_0; [rewrite Rabs_R0; apply bpow_gt_0|apply valid_rnd_N].
    - split; [exact D2|]. change (fval (es t * h / n_ofZ 100)%float = 0). rewrite D1, E0, V1. replace (0 / 100) with 0 by lra. apply round_0, valid_rnd_N.
  Qed.
  Lemma vapor_nan t h : PrimFloat.is_nan h = true -> PrimFloat.is_nan (vapor_any expf t h) = true.
  Proof. intro N. rewrite vapor_shape. apply RadAny.nan_div. left. apply nan_mul. right. exact N. Qed.
  Lemma vapor_nan_temp t h : (forall x, PrimFloat.is_nan x = true -> PrimFloat.is_nan (expf x) = true) -> PrimFloat.is_nan t = true -> PrimFloat.is_nan (vapor_any expf t h) = true.
  Proof.
    intros EN N. rewrite vapor_shape. apply RadAny.nan_div. left. apply nan_mul. left. unfold es. apply nan_mul. right. apply EN. unfold exponent_any.
    destruct (warm_any t); apply RadAny.nan_div; left; apply nan_mul; right; apply RadAny.nan_sub; left; exact N.
  Qed.

  (** ** the dew point *)
  Hypothesis GL : good_logarithm logf.
  Definition ratio_R (t h : float) : R := saturation_R (thawing t) (fval t) * fval h / 100 / 6.112.
  Lemma ratio_log t h : air t -> 1 / 10 ^ 6 <= fval h <= 100 -> ln (ratio_R t h) = magnus (thawing t) (fval t) + ln (fval h / 100).
  Proof.
    intros A H. unfold ratio_R, saturation_R. set (m := magnus (thawing t) (fval t)). replace (6.112 * exp m * fval h / 100 / 6.112) with (exp m * (fval h / 100)) by lra.
    rewrite ln_mult, ln_exp; [reflexivity|apply exp_pos|lra].
  Qed.
  Lemma log_percent h : 1 / 10 ^ 6 <= h <= 100 -> -27 <= ln (h / 100) <= 0.
  Proof.
    intro H. assert (P : 0 < h / 100) by lra. split.
    - assert (I27 : INR 27 = 27) by (rewrite INR_IZR_INZ; reflexivity).
      pose proof (exp_ineq1_le 1) as E1. assert (E27 : 2 ^ 27 <= exp 27) by (rewrite <- I27, exp_nat; apply pow_incr; lra).
      rewrite <- (ln_exp (-27)). replace (-27) with (- (27)) by lra. assert (X : exp (- (27)) <= h / 100).
      { rewrite exp_Ropp. eapply Rle_trans; [apply Rinv_le_contravar; [|exact E27]; lra|]. lra. }
      destruct (Rle_lt_or_eq_dec _ _ X) as [X1| ->]; [left; apply ln_increasing; [apply exp_pos|exact X1]|lra].
    - pose proof (exp_ineq1_le (ln (h / 100))) as E. rewrite exp_ln in E by exact P. lra.
  Qed.
  Lemma ratio_near t h : air t -> humid h -> 1 / 10 ^ 6 <= fval h -> app (vapor_any expf t h / lit 6112 3)%num (ratio_R t h) (15 / 10 ^ 14 * ratio_R t h) /\ 1 / 10 ^ 19 <= ratio_R t h <= 10 ^ 4.
  Proof.
    intros A HH L. pose proof (vapor_near t h A HH) as V. pose proof (saturation_range t A) as B. destruct HH as [FH BH]. unfold ratio_R. set (s := saturation_R (thawing t) (fval t)) in *.
    assert (R0 : 1 / 10 ^ 17 <= s * fval h / 100 <= 2 * 10 ^ 4).
    { assert (1 / 10 ^ 9 * (1 / 10 ^ 6) <= s * fval h) by (apply Rmult_le_compat; lra). assert (s * fval h <= 2 * 10 ^ 4 * 100) by (apply Rmult_le_compat; lra). lra. }
    set (r := s * fval h / 100) in *. split; [|lra].
    pose proof eta64_small as ES. pose proof eta64_pos as E0. pose proof u64_tiny. pose proof cap_9.
    assert (ET : eta64 <= 1 / 10 ^ 40).
    { assert (1 / 10 ^ 300 <= 1 / 10 ^ 40); [|lra]. unfold Rdiv. rewrite !Rmult_1_l. apply Rinv_le_contravar; [apply pow_lt; lra|apply Rle_pow; [lra|lia]]. }
    assert (V' : app (vapor_any expf t h) r (146 / 10 ^ 15 * r)) by (eapply app_weaken; [exact V|lra]).
    destruct lit_6112 as [F6 V6].
    pose proof (app_div _ (lit 6112 3) _ _ r 6.11 V' ltac:(rewrite Rabs_pos_eq; lra) ltac:(lra) ltac:(rewrite V6, Rabs_pos_eq; lra) ltac:(lra)) as [FQ EQ].
    split; [exact FQ|]. rewrite V6 in EQ.
    set (q := fval (vapor_any expf t h / lit 6112 3)%float) in *. change (fval (vapor_any expf t h / lit 6112 3)%num) with q.
    assert (u64 * ((r + 146 / 10 ^ 15 * r) / 6.11) <= 12 / 10 ^ 17 * ((r + 146 / 10 ^ 15 * r) / 6.11)) by (apply Rmult_le_compat_r; lra).
    apply Flocq.Core.Raux.Rabs_le_inv in EQ. apply Rabs_le. lra.
  Qed.
  Definition log_any (t h : float) : float := logf (vapor_any expf t h / lit 6112 3)%num.
  Lemma log_near t h : air t -> humid h -> 1 / 10 ^ 6 <= fval h -> apb (log_any t h) (ln (ratio_R t h)) (4 / 10 ^ 13) 46.
  Proof.
    intros A HH L. destruct (ratio_near t h A HH L) as [[F E] B]. pose proof (magnus_range t A) as M. pose proof (ratio_log t h A (conj L (proj2 (proj2 HH)))) as RL.
    pose proof (log_percent (fval h) (conj L (proj2 (proj2 HH)))) as LP. split.
    - assert (R0 : 0 < ratio_R t h) by lra. assert (D0 : 0 <= 15 / 10 ^ 14 <= 1 / 2) by lra. destruct (ln_near _ _ _ R0 D0 E) as [X0 N].
      assert (X1 : 1 / 10 ^ 20 <= fval (vapor_any expf t h / lit 6112 3)%num <= 10 ^ 20) by (apply Flocq.Core.Raux.Rabs_le_inv in E; lra).
      destruct (GL _ (proj1 (ffin_spec _) F) X1) as [FL EL]. split; [apply ffin_spec; exact FL|]. unfold log_any.
      apply Flocq.Core.Raux.Rabs_le_inv in EL, N. apply Rabs_le. lra.
    - rewrite RL. apply Rabs_le. destruct (thawing t); lra.
  Qed.
  Lemma dew_near t h : air t -> humid h -> 1 / 10 ^ 6 <= fval h ->
    app (dewpoint_any expf logf t h) (dew_R (thawing t) (saturation_R (thawing t) (fval t) * fval h / 100)) (1 / 10 ^ 10).
  Proof.
    intros A HH L. pose proof (log_near t h A HH L) as N. pose proof (magnus_range t A) as M. pose proof (ratio_log t h A (conj L (proj2 (proj2 HH)))) as RL.
    pose proof (log_percent (fval h) (conj L (proj2 (proj2 HH)))) as LP. unfold dewpoint_any, dew_R. fold (log_any t h). fold (ratio_R t h). cbv zeta. rewrite warm_thawing.
    assert (C : apb (lit 27315 2) 273.15 (4 / 10 ^ 14) 274) by (apply (b_eq _ (IZR 27315 / IZR (10 ^ 2))); [apply (b_lit 27315 2); num|num]).
    set (l := ln (ratio_R t h)) in *. destruct (thawing t).
    - assert (L1 : apb (lit 1762 2) 17.62 (3 / 10 ^ 15) 18) by (apply (b_eq _ (IZR 1762 / IZR (10 ^ 2))); [apply (b_lit 1762 2); num|num]).
      assert (L2 : apb (lit 24312 2) 243.12 (4 / 10 ^ 14) 244) by (apply (b_eq _ (IZR 24312 / IZR (10 ^ 2))); [apply (b_lit 24312 2); num|num]).
      pose proof (b_mul _ _ _ _ _ _ _ _ (102 / 10 ^ 12) 11224 L2 N ltac:(lra) ltac:(lra) ltac:(lra)) as P.
      pose proof (b_sub _ _ _ _ _ _ _ _ (42 / 10 ^ 14) 64 L1 N ltac:(lra) ltac:(lra) ltac:(lra)) as S.
      assert (Q : apb (lit 24312 2 * log_any t h / (lit 1762 2 - log_any t h))%num (243.12 * l / (17.62 - l)) (6 / 10 ^ 11) 1000).
      { apply (b_div _ _ _ _ (102 / 10 ^ 12) (42 / 10 ^ 14) 11224 11.5); [exact P|exact (proj1 S)|lra|rewrite Rabs_pos_eq; lra|lra..]. }
      exact (proj1 (b_add _ _ _ _ _ _ _ _ (1 / 10 ^ 10) 2000 Q C ltac:(lra) ltac:(lra) ltac:(lra))).
    - assert (L1 : apb (lit 2246 2) 22.46 (3 / 10 ^ 15) 23) by (apply (b_eq _ (IZR 2246 / IZR (10 ^ 2))); [apply (b_lit 2246 2); num|num]).
      assert (L2 : apb (lit 27262 2) 272.62 (4 / 10 ^ 14) 273) by (apply (b_eq _ (IZR 27262 / IZR (10 ^ 2))); [apply (b_lit 27262 2); num|num]).
      pose proof (b_mul _ _ _ _ _ _ _ _ (115 / 10 ^ 12) 12558 L2 N ltac:(lra) ltac:(lra) ltac:(lra)) as P.
      pose proof (b_sub _ _ _ _ _ _ _ _ (42 / 10 ^ 14) 69 L1 N ltac:(lra) ltac:(lra) ltac:(lra)) as S.
      assert (Q : apb (lit 27262 2 * log_any t h / (lit 2246 2 - log_any t h))%num (272.62 * l / (22.46 - l)) (6 / 10 ^ 11) 1000).
      { apply (b_div _ _ _ _ (115 / 10 ^ 12) (42 / 10 ^ 14) 12558 22.4); [exact P|exact (proj1 S)|lra|rewrite Rabs_pos_eq; lra|lra..]. }
      exact (proj1 (b_add _ _ _ _ _ _ _ _ (1 / 10 ^ 10) 2000 Q C ltac:(lra) ltac:(lra) ltac:(lra))).
  Qed.
  Lemma dew_exact t h : air t -> 1 / 10 ^ 6 <= fval h <= 100 ->
    dew_R (thawing t) (saturation_R (thawing t) (fval t) * fval h / 100) <= fval t /\
    (fval h = 100 -> dew_R (thawing t) (saturation_R (thawing t) (fval t) * fval h / 100) = fval t).
  Proof.
    intros A H. pose proof (magnus_range t A) as M. pose proof (thawing_range t A) as TR. pose proof (ratio_log t h A H) as RL. pose proof (log_percent (fval h) H) as LP.
    unfold dew_R. fold (ratio_R t h). cbv zeta. rewrite RL. assert (S : fval h = 100 -> ln (fval h / 100) = 0) by (intros ->; replace (100 / 100) with 1 by lra; apply ln_1).
    set (k := ln (fval h / 100)) in *. set (m := magnus (thawing t) (fval t)) in *. unfold magnus in m. destruct (thawing t).
    - assert (E : m * (243.12 + (fval t - 273.15)) = 17.62 * (fval t - 273.15)) by (unfold m; field; lra). clearbody m.
      assert (D : 243.12 * (m + k) / (17.62 - (m + k)) * (17.62 - (m + k)) = 243.12 * (m + k)) by (field; lra). set (q := 243.12 * (m + k) / (17.62 - (m + k))) in *. clearbody q. split.
      + apply Rnot_lt_le. intro Q. nra.
      + intro H1. rewrite (S H1), Rplus_0_r in D. apply Rmult_eq_reg_r with (17.62 - m); [|lra]. lra.
    - assert (E : m * (272.62 + (fval t - 273.15)) = 22.46 * (fval t - 273.15)) by (unfold m; field; lra). clearbody m.
      assert (D : 272.62 * (m + k) / (22.46 - (m + k)) * (22.46 - (m + k)) = 272.62 * (m + k)) by (field; lra). set (q := 272.62 * (m + k) / (22.46 - (m + k))) in *. clearbody q. split.
      + apply Rnot_lt_le. intro Q. nra.
      + intro H1. rewrite (S H1), Rplus_0_r in D. apply Rmult_eq_reg_r with (22.46 - m); [|lra]. lra.
  Qed.
  Lemma dew_zero t h : (forall x, PrimFloat.is_finite x = true -> fval x = 0 -> logf x = neg_infinity) -> air t -> PrimFloat.is_finite h = true -> fval h = 0 ->
    PrimFloat.is_nan (dewpoint_any expf logf t h) = true.
  Proof.
    intros L0 A FH H0. destruct (vapor_zero t h A FH H0) as [FV V0]. destruct lit_6112 as [F6 V6]. unfold dewpoint_any. cbv zeta.
    assert (Z : 0 / fval (lit 6112 3 : float) = 0) by (unfold Rdiv; ring).
    destruct (fdiv_correct (vapor_any expf t h) (lit 6112 3) FV) as [D1 D2]; [rewrite V6; lra|rewrite V0, Z, round_0; [rewrite Rabs_R0; apply bpow_gt_0|apply valid_rnd_N]|].
    rewrite V0, Z in D1. assert (E : logf (vapor_any expf t h / lit 6112 3)%num = neg_infinity).
    { apply L0; [apply ffin_spec; exact D2|]. eapply eq_trans; [exact D1|]. apply round_0, valid_rnd_N. }
    rewrite E. destruct (warm_any t); vm_compute; reflexivity.
  Qed.
  Lemma dew_nan t h : (forall x, PrimFloat.is_nan x = true -> PrimFloat.is_nan (logf x) = true) -> PrimFloat.is_nan (vapor_any expf t h) = true ->
    PrimFloat.is_nan (dewpoint_any expf logf t h) = true.
  Proof.
    intros LN N. unfold dewpoint_any. cbv zeta. apply RadAny.nan_add. left. destruct (warm_any t); apply RadAny.nan_div; left; apply nan_mul; right; apply LN, RadAny.nan_div; left; exact N.
  Qed.
End Open.
