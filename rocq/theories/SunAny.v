(** Sun times in binary64. *)
From Coq Require Import ZArith List Bool Lia Reals Lra Floats.
From Flocq Require Import Core IEEE754.BinarySingleNaN IEEE754.PrimFloat.
From Verif Require Import Num Cal SpecUtil F64 CascadeFloat CascadeRound FiveRound AggRound CourseRound SpecSineRound ErrCalc SineRound
  PotAnyModel SpecPotAny PotAny SunAnyModel SpecSunAny.
Import ListNotations.
Open Scope R_scope.

(** ** reals *)
Lemma pi_bounds : 3.1415 < PI < 3.1416.
Proof.
  pose proof PI_close as P. assert (V : fval np_pi = 884279719003555 / 281474976710656) by (unfold fval; vm_compute; lra).
  rewrite V in P. apply Flocq.Core.Raux.Rabs_le_inv in P. lra.
Qed.
Lemma np_pi_bounds : ffin np_pi /\ 3.1415 < fval np_pi < 3.1416.
Proof.
  assert (V : fval np_pi = 884279719003555 / 281474976710656) by (unfold fval; vm_compute; lra).
  split; [unfold ffin; vm_compute; reflexivity|]. rewrite V. lra.
Qed.
Lemma tan_minus a b : cos a <> 0 -> cos b <> 0 -> tan a - tan b = sin (a - b) / (cos a * cos b).
Proof. intros A B. unfold tan. rewrite sin_minus. field. split; assumption. Qed.
Lemma tan_lipschitz a b c : 0 < c -> c <= cos a -> c <= cos b -> Rabs (tan a - tan b) <= Rabs (a - b) / (c * c).
Proof.
  intros C A B. rewrite tan_minus by lra. unfold Rdiv. rewrite Rabs_mult.
  assert (P : c * c <= cos a * cos b) by (apply Rmult_le_compat; lra). assert (Q : 0 < c * c) by (apply Rmult_lt_0_compat; lra).
  rewrite Rabs_inv, (Rabs_pos_eq (cos a * cos b)) by lra.
  apply Rmult_le_compat; [apply Rabs_pos|left; apply Rinv_0_lt_compat; lra| |apply Rinv_le_contravar; lra].
  pose proof (sin_lipschitz (a - b) 0) as S. rewrite sin_0, !Rminus_0_r in S. exact S.
Qed.
Lemma tan_small r c A : 0 < c -> c <= cos r -> Rabs r <= A -> Rabs (tan r) <= A / c.
Proof.
  intros C H HA. unfold tan, Rdiv. rewrite Rabs_mult, Rabs_inv, (Rabs_pos_eq (cos r)) by lra.
  apply Rmult_le_compat; [apply Rabs_pos|left; apply Rinv_0_lt_compat; lra| |apply Rinv_le_contravar; lra].
  pose proof (sin_lipschitz r 0) as S. rewrite sin_0, !Rminus_0_r in S. lra.
Qed.
Lemma tan_one r c : 0 < c -> c <= cos r -> Rabs (tan r) <= 1 / c.
Proof.
  intros C H. unfold tan, Rdiv. rewrite Rabs_mult, Rabs_inv, (Rabs_pos_eq (cos r)) by lra.
  apply Rmult_le_compat; [apply Rabs_pos|left; apply Rinv_0_lt_compat; lra|apply Rabs_le, SIN_bound|apply Rinv_le_contravar; lra].
Qed.
Lemma sin_half y : 0 <= y <= PI / 3 -> y / 2 <= sin y.
Proof.
  intros [[L|<-] U]; [|rewrite sin_0; lra]. pose proof pi_bounds.
  destruct (MVT_cor2 sin cos 0 y L) as (c & E & H0); [intros; apply derivable_pt_lim_sin|]. rewrite sin_0 in E.
  assert (K : cos (PI / 3) <= cos c) by (apply cos_decr_1; lra). rewrite cos_PI3 in K. nra.
Qed.
Lemma cos_89 r : Rabs r <= 89 * (PI / 180) -> 0.0087 <= cos r.
Proof.
  intro H. pose proof pi_bounds as P. assert (E : cos r = cos (Rabs r)) by (unfold Rabs; destruct (Rcase_abs r); [symmetry; apply cos_neg|reflexivity]). rewrite E, cos_sin.
  pose proof (Rabs_pos r). pose proof (sin_half (PI / 180) ltac:(lra)) as S.
  assert (K : sin (PI / 180) <= sin (PI / 2 + Rabs r)).
  { rewrite <- cos_sin, <- (cos_shift (PI / 180)). apply cos_decr_1; lra. }
  lra.
Qed.
Lemma cos_small r : Rabs r <= 0.52 -> 0.86 <= cos r.
Proof.
  intro H. pose proof pi_bounds as P. assert (E : cos r = cos (Rabs r)) by (unfold Rabs; destruct (Rcase_abs r); [symmetry; apply cos_neg|reflexivity]). rewrite E.
  pose proof (Rabs_pos r). assert (K : cos (PI / 6) <= cos (Rabs r)) by (apply cos_decr_1; lra). rewrite cos_PI6 in K.
  assert (S : 1.72 <= R_sqrt.sqrt 3) by (apply Rsqr_incr_0; [rewrite Rsqr_sqrt by lra; unfold Rsqr; lra|lra|apply sqrt_pos]). lra.
Qed.
(** the arc cosine away from -1 and 1 *)
Lemma acos_lipschitz p q : Rabs p <= 0.9991 -> Rabs q <= 0.9991 -> Rabs (acos p - acos q) <= 25 * Rabs (p - q).
Proof.
  assert (W : forall p q, Rabs p <= 0.9991 -> Rabs q <= 0.9991 -> acos p < acos q -> acos q - acos p <= 25 * (p - q)).
  { clear p q. intros p q HP HQ L. apply Flocq.Core.Raux.Rabs_le_inv in HP, HQ.
    pose proof (acos_bound p) as BP. pose proof (acos_bound q) as BQ.
    destruct (MVT_cor2 cos (fun x => - sin x) (acos p) (acos q) L) as (c & E & H0); [intros; apply derivable_pt_lim_cos|].
    rewrite !cos_acos in E by lra.
    assert (C1 : cos c <= p) by (rewrite <- (cos_acos p) by lra; apply cos_decr_1; lra).
    assert (C2 : q <= cos c) by (rewrite <- (cos_acos q) by lra; apply cos_decr_1; lra).
    assert (S0 : 0 <= sin c) by (apply sin_ge_0; lra).
    assert (S1 : 0.04 <= sin c).
    { pose proof (sin2_cos2 c) as Q. unfold Rsqr in Q. assert (cos c * cos c <= 0.9991 * 0.9991) by nra. nra. }
    assert (0.04 * (acos q - acos p) <= sin c * (acos q - acos p)) by (apply Rmult_le_compat_r; lra). lra. }
  intros HP HQ. destruct (Rtotal_order (acos p) (acos q)) as [L|[E|L]].
  - pose proof (W p q HP HQ L) as K. rewrite Rabs_left1 by lra. assert (0 < p - q) by lra. rewrite Rabs_pos_eq by lra. lra.
  - rewrite E, Rminus_diag_eq, Rabs_R0 by reflexivity. pose proof (Rabs_pos (p - q)). lra.
  - pose proof (W q p HQ HP L) as K. rewrite Rabs_pos_eq by lra. rewrite Rabs_left1 by lra. lra.
Qed.

(** ** steps *)
Lemma b_divpi x r e A g C : apb x r e A -> A + e <= 10 ^ 9 -> (e + 2 / 10 ^ 16 * (A + e)) / 3 + A * (3 / 10 ^ 17) + 1 / 10 ^ 20 <= g -> A / 3 <= C ->
  apb (x / np_pi)%num (r / PI) g C.
Proof.
  intros [X1 X2] H1 H2 H3. pose proof pi_bounds as P. destruct np_pi_bounds as [FP NP].
  pose proof (Rabs_pos r) as P1. pose proof X1 as [_ EX]. pose proof (Rabs_pos (fval x - r)) as P2.
  pose proof cap_9. pose proof u64_tiny. pose proof eta_tiny as ET. pose proof eta64_pos as E0.
  split.
  - destruct (app_div x np_pi r e A 3 X1 X2) as [F E]; [lra|rewrite Rabs_pos_eq; lra|lra|]. split; [exact F|].
    replace (fval (x / np_pi)%num - r / PI) with ((fval (x / np_pi)%float - r / fval np_pi) + r * ((PI - fval np_pi) * / (fval np_pi * PI))) by (change (x / np_pi)%num with (x / np_pi)%float; field; lra).
    eapply Rle_trans; [apply Rabs_triang|].
    assert (u64 * ((A + e) / 3) <= 12 / 10 ^ 17 * ((A + e) / 3)) by (apply Rmult_le_compat_r; lra).
    assert (Rabs (r * ((PI - fval np_pi) * / (fval np_pi * PI))) <= A * (3 / 10 ^ 17)); [|lra].
    rewrite Rabs_mult. apply Rmult_le_compat; try apply Rabs_pos; [exact X2|]. rewrite Rabs_mult.
    pose proof PI_close as PC. rewrite Rabs_minus_sym in PC.
    assert (Q : 9 <= fval np_pi * PI) by (replace 9 with (3 * 3) by lra; apply Rmult_le_compat; lra).
    rewrite Rabs_inv, (Rabs_pos_eq (fval np_pi * PI)) by lra.
    apply Rle_trans with (2 / 10 ^ 16 * / 9); [|lra].
    apply Rmult_le_compat; [apply Rabs_pos|left; apply Rinv_0_lt_compat; lra|exact PC|apply Rinv_le_contravar; lra].
  - unfold Rdiv. rewrite Rabs_mult, Rabs_inv, (Rabs_pos_eq PI) by lra.
    apply Rle_trans with (A * / 3); [|lra]. apply Rmult_le_compat; [apply Rabs_pos|left; apply Rinv_0_lt_compat; lra|exact X2|apply Rinv_le_contravar; lra].
Qed.
Lemma b_weaken x r e A g C : apb x r e A -> e <= g -> A <= C -> apb x r g C.
Proof. intros [X1 X2] H1 H2. split; [eapply app_weaken; eassumption|lra]. Qed.
(** the tangent of a double next to [r] *)
Lemma near_tan tanf x r e A c B g : good_tangent tanf -> apb x r e A -> A + e <= 1.56 -> e < c -> c <= cos r -> Rabs (tan r) <= B ->
  e / ((c - e) * (c - e)) <= g -> apb (tanf x) (tan r) (g + 1 / 10 ^ 15 * (1 + B + g)) B.
Proof.
  intros [G1 G2] [X1 X2] HA HE HC HB HG. pose proof (app_bound _ _ _ _ X1 X2) as BX. destruct X1 as [F E]. split; [|exact HB].
  pose proof (Rabs_pos (fval x - r)) as P0.
  assert (C1 : c - e <= cos (fval x)).
  { pose proof (cos_lipschitz (fval x) r) as L. pose proof (Rle_abs (cos r - cos (fval x))) as Q. rewrite Rabs_minus_sym in Q. lra. }
  assert (T : Rabs (tan (fval x) - tan r) <= g).
  { eapply Rle_trans; [apply (tan_lipschitz _ _ (c - e)); lra|]. eapply Rle_trans; [|exact HG].
    apply Rmult_le_compat_r; [left; apply Rinv_0_lt_compat, Rmult_lt_0_compat; lra|exact E]. }
  destruct (G1 x ltac:(apply ffin_spec; exact F) ltac:(lra)) as [FT _]. split; [apply ffin_spec; exact FT|].
  specialize (G2 x ltac:(apply ffin_spec; exact F) ltac:(lra)).
  assert (TB : Rabs (tan (fval x)) <= B + g).
  { replace (tan (fval x)) with (tan r + (tan (fval x) - tan r)) by ring. eapply Rle_trans; [apply Rabs_triang|lra]. }
  replace (fval (tanf x) - tan r) with ((fval (tanf x) - tan (fval x)) + (tan (fval x) - tan r)) by ring.
  eapply Rle_trans; [apply Rabs_triang|]. lra.
Qed.
(** a finite tangent times a small number *)
Lemma sub_mono x y d : ffin x -> ffin y -> ffin d -> Rabs (fval x) <= 10 ^ 6 -> Rabs (fval y) <= 10 ^ 6 -> Rabs (fval d) <= 10 ^ 6 ->
  fval x <= fval y -> fval (x - d)%float <= fval (y - d)%float.
Proof.
  intros FX FY FD BX BY BD L. pose proof cap_9. apply Flocq.Core.Raux.Rabs_le_inv in BX, BY, BD.
  assert (R1 : Rabs (fval x - fval d) <= 100 * cap) by (apply Rabs_le; lra). assert (R2 : Rabs (fval y - fval d) <= 100 * cap) by (apply Rabs_le; lra).
  destruct (fsub_correct x d FX FD (rnd_in_range _ R1)) as [E1 _]. destruct (fsub_correct y d FY FD (rnd_in_range _ R2)) as [E2 _].
  rewrite E1, E2. apply rnd_le. lra.
Qed.
Lemma mul_mono k x y : ffin k -> ffin x -> ffin y -> 0 <= fval k <= 1000 -> Rabs (fval x) <= 10 ^ 5 -> Rabs (fval y) <= 10 ^ 5 ->
  fval x <= fval y -> fval (k * x)%float <= fval (k * y)%float.
Proof.
  intros FK FX FY BK BX BY L. pose proof cap_9.
  assert (R1 : Rabs (fval k * fval x) <= 100 * cap) by (rewrite Rabs_mult, (Rabs_pos_eq (fval k)) by lra; pose proof (Rabs_pos (fval x)); nra).
  assert (R2 : Rabs (fval k * fval y) <= 100 * cap) by (rewrite Rabs_mult, (Rabs_pos_eq (fval k)) by lra; pose proof (Rabs_pos (fval y)); nra).
  destruct (fmul_correct k x FK FX (rnd_in_range _ R1)) as [E1 _]. destruct (fmul_correct k y FK FY (rnd_in_range _ R2)) as [E2 _].
  rewrite E1, E2. apply rnd_le, Rmult_le_compat_l; lra.
Qed.
Lemma fltb_val x y : ffin x -> ffin y -> if (x <? y)%float then fval x < fval y else fval y <= fval x.
Proof. intros FX FY. destruct (fltb_correct x y FX FY); lra. Qed.

Section Sun.
  Variables sinf cosf tanf acosf : float -> float.
  Hypothesis GS : good_sine sinf.
  Hypothesis GC : good_cosine cosf.
  Hypothesis GT : good_tangent tanf.
  Hypothesis GA : good_arccosine acosf.

  Lemma b_deg : apb (np_pi / n_ofZ 180)%num (PI / 180) (4 / 10 ^ 18) (175 / 10000).
  Proof. eapply (b_divZ _ 180 _ (2 / 10 ^ 16) (315 / 100)); [lia|apply b_pi|lra..]. Qed.
  Lemma decl_near doy : (1 <= doy <= 366)%Z -> apb (declination_any np_pi sinf cosf doy) (decl_R doy) (6 / 10 ^ 15) (44 / 100).
  Proof.
    intro HD. unfold declination_any, radians at 1, decl_R. cbv zeta.
    set (a := radians np_pi _).
    assert (A : apb a (decl_angle doy) (7 / 10 ^ 15) 8).
    { unfold a, radians, decl_angle.
      assert (A1 : apb (n_ofZ 360 / lit 36525 2)%num (360 / 365.25) (25 / 10 ^ 17) (360 / 365)).
      { eapply (b_365 _ _ 0 360); [apply (b_Z 360); num|lra..]. }
      assert (L : apb (lit 79346 3) 79.346 (1 / 10 ^ 14) 80) by (eapply b_eq; [apply (b_lit 79346 3); [num..]|num]).
      assert (A2 : apb (n_ofZ doy - lit 79346 3)%num (IZR doy - 79.346) (7 / 10 ^ 14) 446).
      { eapply (b_sub _ _ _ _ 0 (1 / 10 ^ 14) 366 80); [apply b_Z; [lia|apply IZR_le; lia]|exact L|lra..]. }
      assert (A3 : apb (n_ofZ 360 / lit 36525 2 * (n_ofZ doy - lit 79346 3))%num (360 / 365.25 * (IZR doy - 79.346)) (24 / 10 ^ 14) 440).
      { eapply (b_mul _ _ _ _ (25 / 10 ^ 17) (7 / 10 ^ 14) (360 / 365) 446); [exact A1|exact A2|lra..]. }
      eapply (b_mul _ _ _ _ (24 / 10 ^ 14) (4 / 10 ^ 18) 440 (175 / 10000)); [exact A3|apply b_deg|lra..]. }
    clearbody a. set (r := decl_angle doy) in *. clearbody r.
    assert (M2 : apb (n_ofZ 2 * a)%num (2 * r) (17 / 10 ^ 15) 16) by (eapply (b_mul _ _ _ _ 0 (7 / 10 ^ 15) 2 8); [apply (b_Z 2); num|exact A|lra..]).
    assert (M3 : apb (n_ofZ 3 * a)%num (3 * r) (24 / 10 ^ 15) 24) by (eapply (b_mul _ _ _ _ 0 (7 / 10 ^ 15) 3 8); [apply (b_Z 3); num|exact A|lra..]).
    assert (S1 : apb (sinf a) (sin r) (8 / 10 ^ 15) 1) by (eapply (b_sin _ _ _ (7 / 10 ^ 15) 8); [exact GS|exact A|lra..]).
    assert (C1 : apb (cosf a) (cos r) (8 / 10 ^ 15) 1) by (eapply (b_cos _ _ _ (7 / 10 ^ 15) 8); [exact GC|exact A|lra..]).
    assert (S2 : apb (sinf (n_ofZ 2 * a)%num) (sin (2 * r)) (18 / 10 ^ 15) 1) by (eapply (b_sin _ _ _ (17 / 10 ^ 15) 16); [exact GS|exact M2|lra..]).
    assert (C2 : apb (cosf (n_ofZ 2 * a)%num) (cos (2 * r)) (18 / 10 ^ 15) 1) by (eapply (b_cos _ _ _ (17 / 10 ^ 15) 16); [exact GC|exact M2|lra..]).
    assert (S3 : apb (sinf (n_ofZ 3 * a)%num) (sin (3 * r)) (25 / 10 ^ 15) 1) by (eapply (b_sin _ _ _ (24 / 10 ^ 15) 24); [exact GS|exact M3|lra..]).
    assert (C3 : apb (cosf (n_ofZ 3 * a)%num) (cos (3 * r)) (25 / 10 ^ 15) 1) by (eapply (b_cos _ _ _ (24 / 10 ^ 15) 24); [exact GC|exact M3|lra..]).
    assert (L0 : apb (lit 3723 4) 0.3723 (1 / 10 ^ 16) 0.3723) by (eapply b_eq; [apply (b_lit 3723 4); [num..]|num]).
    assert (L1 : apb (lit 232567 4) 23.2567 (3 / 10 ^ 15) 23.2567) by (eapply b_eq; [apply (b_lit 232567 4); [num..]|num]).
    assert (L2 : apb (lit 7580 4) 0.7580 (1 / 10 ^ 16) 0.7580) by (eapply b_eq; [apply (b_lit 7580 4); [num..]|num]).
    assert (L3 : apb (lit 1149 4) 0.1149 (1 / 10 ^ 16) 0.1149) by (eapply b_eq; [apply (b_lit 1149 4); [num..]|num]).
    assert (L4 : apb (lit 3656 4) 0.3656 (1 / 10 ^ 16) 0.3656) by (eapply b_eq; [apply (b_lit 3656 4); [num..]|num]).
    assert (L5 : apb (lit 1712 4) 0.1712 (1 / 10 ^ 16) 0.1712) by (eapply b_eq; [apply (b_lit 1712 4); [num..]|num]).
    assert (L6 : apb (lit 201 4) 0.0201 (1 / 10 ^ 16) 0.0201) by (eapply b_eq; [apply (b_lit 201 4); [num..]|num]).
    assert (T1 : apb (lit 232567 4 * sinf a)%num (23.2567 * sin r) (20 / 10 ^ 14) 23.2567) by (eapply (b_mul _ _ _ _ (3 / 10 ^ 15) (8 / 10 ^ 15) 23.2567 1); [exact L1|exact S1|lra..]).
    assert (T2 : apb (lit 7580 4 * cosf a)%num (0.7580 * cos r) (1 / 10 ^ 14) 0.7580) by (eapply (b_mul _ _ _ _ (1 / 10 ^ 16) (8 / 10 ^ 15) 0.7580 1); [exact L2|exact C1|lra..]).
    assert (T3 : apb (lit 1149 4 * sinf (n_ofZ 2 * a))%num (0.1149 * sin (2 * r)) (1 / 10 ^ 14) 0.1149) by (eapply (b_mul _ _ _ _ (1 / 10 ^ 16) (18 / 10 ^ 15) 0.1149 1); [exact L3|exact S2|lra..]).
    assert (T4 : apb (lit 3656 4 * cosf (n_ofZ 2 * a))%num (0.3656 * cos (2 * r)) (1 / 10 ^ 14) 0.3656) by (eapply (b_mul _ _ _ _ (1 / 10 ^ 16) (18 / 10 ^ 15) 0.3656 1); [exact L4|exact C2|lra..]).
    assert (T5 : apb (lit 1712 4 * sinf (n_ofZ 3 * a))%num (0.1712 * sin (3 * r)) (1 / 10 ^ 14) 0.1712) by (eapply (b_mul _ _ _ _ (1 / 10 ^ 16) (25 / 10 ^ 15) 0.1712 1); [exact L5|exact S3|lra..]).
    assert (T6 : apb (lit 201 4 * cosf (n_ofZ 3 * a))%num (0.0201 * cos (3 * r)) (1 / 10 ^ 14) 0.0201) by (eapply (b_mul _ _ _ _ (1 / 10 ^ 16) (25 / 10 ^ 15) 0.0201 1); [exact L6|exact C3|lra..]).
    pose proof (b_add _ _ _ _ _ _ _ _ (21 / 10 ^ 14) 23.629 L0 T1 ltac:(lra) ltac:(lra) ltac:(lra)) as U1.
    pose proof (b_sub _ _ _ _ _ _ _ _ (23 / 10 ^ 14) 24.387 U1 T2 ltac:(lra) ltac:(lra) ltac:(lra)) as U2.
    pose proof (b_add _ _ _ _ _ _ _ _ (25 / 10 ^ 14) 24.502 U2 T3 ltac:(lra) ltac:(lra) ltac:(lra)) as U3.
    pose proof (b_add _ _ _ _ _ _ _ _ (27 / 10 ^ 14) 24.868 U3 T4 ltac:(lra) ltac:(lra) ltac:(lra)) as U4.
    pose proof (b_sub _ _ _ _ _ _ _ _ (29 / 10 ^ 14) 25.04 U4 T5 ltac:(lra) ltac:(lra) ltac:(lra)) as U5.
    pose proof (b_add _ _ _ _ _ _ _ _ (31 / 10 ^ 14) 25.061 U5 T6 ltac:(lra) ltac:(lra) ltac:(lra)) as U6.
    eapply (b_mul _ _ _ _ (31 / 10 ^ 14) (4 / 10 ^ 18) 25.061 (175 / 10000)); [exact U6|apply b_deg|lra..].
  Qed.
  Lemma eq_near doy : (1 <= doy <= 366)%Z -> apb (eq_time_any np_pi sinf cosf doy) (eqtime_R doy) (2 / 10 ^ 14) 0.4.
  Proof.
    intro HD. unfold eq_time_any, eqtime_R. cbv zeta.
    set (a := (n_ofZ 2 * np_pi * n_ofZ (doy - 1) / n_ofZ 365)%num). set (r := 2 * PI * IZR (doy - 1) / 365).
    assert (A : apb a r (1 / 10 ^ 14) 8).
    { unfold a, r.
      assert (D2 : apb (n_ofZ 2 * np_pi)%num (2 * PI) (2 / 10 ^ 15) 7) by (eapply (b_mul _ _ _ _ 0 (2 / 10 ^ 16) 2 (315 / 100)); [apply (b_Z 2); num|apply b_pi|lra..]).
      assert (D3 : apb (n_ofZ 2 * np_pi * n_ofZ (doy - 1))%num (2 * PI * IZR (doy - 1)) (2 / 10 ^ 12) 2555).
      { eapply (b_mul _ _ _ _ (2 / 10 ^ 15) 0 7 365); [exact D2|apply b_Z; [lia|apply IZR_le; lia]|lra..]. }
      eapply (b_divZ _ 365 _ (2 / 10 ^ 12) 2555); [lia|exact D3|lra..]. }
    clearbody a r.
    assert (M2 : apb (n_ofZ 2 * a)%num (2 * r) (3 / 10 ^ 14) 16) by (eapply (b_mul _ _ _ _ 0 (1 / 10 ^ 14) 2 8); [apply (b_Z 2); num|exact A|lra..]).
    assert (S1 : apb (sinf a) (sin r) (2 / 10 ^ 14) 1) by (eapply (b_sin _ _ _ (1 / 10 ^ 14) 8); [exact GS|exact A|lra..]).
    assert (C1 : apb (cosf a) (cos r) (2 / 10 ^ 14) 1) by (eapply (b_cos _ _ _ (1 / 10 ^ 14) 8); [exact GC|exact A|lra..]).
    assert (S2 : apb (sinf (n_ofZ 2 * a)%num) (sin (2 * r)) (4 / 10 ^ 14) 1) by (eapply (b_sin _ _ _ (3 / 10 ^ 14) 16); [exact GS|exact M2|lra..]).
    assert (C2 : apb (cosf (n_ofZ 2 * a)%num) (cos (2 * r)) (4 / 10 ^ 14) 1) by (eapply (b_cos _ _ _ (3 / 10 ^ 14) 16); [exact GC|exact M2|lra..]).
    assert (L0 : apb (lit 75 6) 0.000075 (1 / 10 ^ 17) 0.000075) by (eapply b_eq; [apply (b_lit 75 6); [num..]|num]).
    assert (L1 : apb (lit 1868 6) 0.001868 (1 / 10 ^ 17) 0.001868) by (eapply b_eq; [apply (b_lit 1868 6); [num..]|num]).
    assert (L2 : apb (lit 32077 6) 0.032077 (1 / 10 ^ 17) 0.032077) by (eapply b_eq; [apply (b_lit 32077 6); [num..]|num]).
    assert (L3 : apb (lit 14615 6) 0.014615 (1 / 10 ^ 17) 0.014615) by (eapply b_eq; [apply (b_lit 14615 6); [num..]|num]).
    assert (L4 : apb (lit 40849 6) 0.040849 (1 / 10 ^ 17) 0.040849) by (eapply b_eq; [apply (b_lit 40849 6); [num..]|num]).
    assert (T1 : apb (lit 1868 6 * cosf a)%num (0.001868 * cos r) (1 / 10 ^ 16) 0.001868) by (eapply (b_mul _ _ _ _ (1 / 10 ^ 17) (2 / 10 ^ 14) 0.001868 1); [exact L1|exact C1|lra..]).
    assert (T2 : apb (lit 32077 6 * sinf a)%num (0.032077 * sin r) (8 / 10 ^ 16) 0.032077) by (eapply (b_mul _ _ _ _ (1 / 10 ^ 17) (2 / 10 ^ 14) 0.032077 1); [exact L2|exact S1|lra..]).
    assert (T3 : apb (lit 14615 6 * cosf (n_ofZ 2 * a))%num (0.014615 * cos (2 * r)) (7 / 10 ^ 16) 0.014615) by (eapply (b_mul _ _ _ _ (1 / 10 ^ 17) (4 / 10 ^ 14) 0.014615 1); [exact L3|exact C2|lra..]).
    assert (T4 : apb (lit 40849 6 * sinf (n_ofZ 2 * a))%num (0.040849 * sin (2 * r)) (17 / 10 ^ 16) 0.040849) by (eapply (b_mul _ _ _ _ (1 / 10 ^ 17) (4 / 10 ^ 14) 0.040849 1); [exact L4|exact S2|lra..]).
    pose proof (b_add _ _ _ _ _ _ _ _ (2 / 10 ^ 16) 0.002 L0 T1 ltac:(lra) ltac:(lra) ltac:(lra)) as U1.
    pose proof (b_sub _ _ _ _ _ _ _ _ (11 / 10 ^ 16) 0.0341 U1 T2 ltac:(lra) ltac:(lra) ltac:(lra)) as U2.
    pose proof (b_sub _ _ _ _ _ _ _ _ (19 / 10 ^ 16) 0.0488 U2 T3 ltac:(lra) ltac:(lra) ltac:(lra)) as U3.
    pose proof (b_sub _ _ _ _ _ _ _ _ (37 / 10 ^ 16) 0.09 U3 T4 ltac:(lra) ltac:(lra) ltac:(lra)) as U4.
    assert (V : apb (n_ofZ 12 / np_pi)%num (12 / PI) (2 / 10 ^ 15) 4) by (eapply (b_divpi _ _ 0 12); [apply (b_Z 12); num|lra..]).
    eapply (b_mul _ _ _ _ (2 / 10 ^ 15) (37 / 10 ^ 16) 4 0.09); [exact V|exact U4|lra..].
  Qed.
  Lemma delta_near lon tz : degrees lon -> zone tz -> apb (delta_any lon tz) ((fval lon - fval tz * 15) * 24 / 360) (9 / 10 ^ 14) 167.
  Proof.
    intros [FL BL] [FZ BZ]. unfold delta_any.
    assert (A1 : apb (tz * n_ofZ 15)%num (fval tz * 15) (2 / 10 ^ 13) 1500) by (eapply (b_mul _ _ _ _ 0 0 100 15); [apply b_exact; assumption|apply (b_Z 15); num|lra..]).
    assert (A2 : apb (lon - tz * n_ofZ 15)%num (fval lon - fval tz * 15) (6 / 10 ^ 13) 2500) by (eapply (b_sub _ _ _ _ 0 (2 / 10 ^ 13) 1000 1500); [apply b_exact; assumption|exact A1|lra..]).
    assert (A3 : apb ((lon - tz * n_ofZ 15) * n_ofZ 24)%num ((fval lon - fval tz * 15) * 24) (22 / 10 ^ 12) 60000) by (eapply (b_mul _ _ _ _ (6 / 10 ^ 13) 0 2500 24); [exact A2|apply (b_Z 24); num|lra..]).
    eapply (b_divZ _ 360 _ (22 / 10 ^ 12) 60000); [lia|exact A3|lra..].
  Qed.
  (** twelve hours times a factor, moved to the place and the day *)
  Definition moved (doy : Z) (lon tz x : float) : float := (n_ofZ 12 * x - delta_any lon tz - eq_time_any np_pi sinf cosf doy)%num.
  Lemma moved_near doy lon tz x r e : (1 <= doy <= 366)%Z -> degrees lon -> zone tz -> apb x r e (21 / 10) -> 0 <= e <= 1 / 100 ->
    apb (moved doy lon tz x) (noon_R doy (fval lon) (fval tz) + 12 * (r - 1)) (13 * e + 1 / 10 ^ 12) 200.
  Proof.
    intros HD HL HZ HX He. unfold moved.
    pose proof (delta_near lon tz HL HZ) as D. pose proof (eq_near doy HD) as Q.
    assert (A1 : apb (n_ofZ 12 * x)%num (12 * r) (12.1 * e + 1 / 10 ^ 14) 26) by (eapply (b_mul _ _ _ _ 0 e 12 (21 / 10)); [apply (b_Z 12); num|exact HX|lra..]).
    assert (A2 : apb (n_ofZ 12 * x - delta_any lon tz)%num (12 * r - (fval lon - fval tz * 15) * 24 / 360) (12.5 * e + 2 / 10 ^ 13) 193).
    { eapply (b_sub _ _ _ _ (12.1 * e + 1 / 10 ^ 14) (9 / 10 ^ 14) 26 167); [exact A1|exact D|lra..]. }
    eapply b_eq; [eapply (b_sub _ _ _ _ (12.5 * e + 2 / 10 ^ 13) (2 / 10 ^ 14) 193 0.4); [exact A2|exact Q|lra..]|]. unfold noon_R. lra.
  Qed.
  Lemma moved_mono doy lon tz x y : (1 <= doy <= 366)%Z -> degrees lon -> zone tz -> ffin x -> ffin y -> Rabs (fval x) <= 2 -> Rabs (fval y) <= 2 ->
    fval x <= fval y -> fval (moved doy lon tz x) <= fval (moved doy lon tz y).
  Proof.
    intros HD HL HZ FX FY BX BY L. unfold moved.
    pose proof (delta_near lon tz HL HZ) as [D1 D2]. pose proof (eq_near doy HD) as [Q1 Q2].
    pose proof (app_bound _ _ _ _ D1 D2) as BD. pose proof (app_bound _ _ _ _ Q1 Q2) as BQ.
    destruct (ofZ_val 12 ltac:(lia)) as [F12 V12].
    assert (A : forall z, ffin z -> Rabs (fval z) <= 2 -> ffin (n_ofZ 12 * z)%float /\ Rabs (fval (n_ofZ 12 * z)%float) <= 30 /\
                ffin (n_ofZ 12 * z - delta_any lon tz)%float /\ Rabs (fval (n_ofZ 12 * z - delta_any lon tz)%float) <= 300).
    { intros z FZ' BZ'. assert (A1 : apb (n_ofZ 12 * z)%num (12 * fval z) (1 / 10 ^ 14) 26).
      { eapply (b_mul _ _ _ _ 0 0 12 2); [apply (b_Z 12); num|apply b_exact; [apply ffin_spec; exact FZ'|exact BZ']|lra..]. }
      assert (A2 : apb (n_ofZ 12 * z - delta_any lon tz)%num (12 * fval z - (fval lon - fval tz * 15) * 24 / 360) (2 / 10 ^ 13) 193).
      { eapply (b_sub _ _ _ _ (1 / 10 ^ 14) (9 / 10 ^ 14) 26 167); [exact A1|split; [exact D1|exact D2]|lra..]. }
      destruct A1 as [A1 A1b], A2 as [A2 A2b]. pose proof (app_bound _ _ _ _ A1 A1b) as B1. pose proof (app_bound _ _ _ _ A2 A2b) as B2.
      split; [apply A1|]. split; [change (n_ofZ 12 * z)%float with (n_ofZ 12 * z)%num; lra|]. split; [apply A2|].
      change (n_ofZ 12 * z - delta_any lon tz)%float with (n_ofZ 12 * z - delta_any lon tz)%num; lra. }
    destruct (A x FX BX) as (X1 & X2 & X3 & X4). destruct (A y FY BY) as (Y1 & Y2 & Y3 & Y4).
    apply (sub_mono _ _ _ X3 Y3 (proj1 Q1)); [lra..|].
    apply (sub_mono _ _ _ X1 Y1 (proj1 D1)); [lra..|].
    apply (mul_mono _ _ _ F12 FX FY); [lra..|exact L].
  Qed.
  Lemma one_fin : ffin (n1 : float) /\ fval (n1 : float) = 1.
  Proof. split; [unfold ffin; vm_compute; reflexivity|apply fv_1]. Qed.

  (** ** the argument of the arc cosine *)
  Lemma tan_decl doy : (1 <= doy <= 366)%Z -> apb (tanf (declination_any np_pi sinf cosf doy)) (tan (decl_R doy)) (2 / 10 ^ 14) (52 / 100).
  Proof.
    intro HD. pose proof (decl_near doy HD) as D. destruct D as [D1 D2]. assert (C : 0.86 <= cos (decl_R doy)) by (apply cos_small; lra).
    eapply b_weaken; [apply (near_tan tanf _ _ (6 / 10 ^ 15) (44 / 100) 0.86 (52 / 100) (1 / 10 ^ 14)); [exact GT|split; [exact D1|exact D2]|lra|lra|exact C| |]|lra|lra].
    - eapply Rle_trans; [apply (tan_small _ 0.86 (44 / 100)); lra|lra].
    - apply Rmult_le_reg_r with ((0.86 - 6 / 10 ^ 15) * (0.86 - 6 / 10 ^ 15)); [lra|]. unfold Rdiv at 1. rewrite Rmult_assoc, Rinv_l by lra. lra.
  Qed.
  Lemma radians_near lat : degrees lat -> apb (radians np_pi lat) (fval lat * (PI / 180)) (1 / 10 ^ 14) 18.
  Proof. intros [FA BA]. unfold radians. eapply (b_mul _ _ _ _ 0 (4 / 10 ^ 18) 1000 (175 / 10000)); [apply b_exact; assumption|apply b_deg|lra..]. Qed.
  Lemma arg_finite doy lat : (1 <= doy <= 366)%Z -> degrees lat -> ffin (sun_arg np_pi sinf cosf tanf doy lat).
  Proof.
    intros HD HA. unfold sun_arg. pose proof (radians_near lat HA) as [R1 R2]. pose proof (app_bound _ _ _ _ R1 R2) as BR.
    destruct (proj1 GT (radians np_pi lat)) as [FT BT]; [apply ffin_spec, R1|lra|].
    pose proof (tan_decl doy HD) as [T1 T2]. pose proof (app_bound _ _ _ _ T1 T2) as B2.
    destruct (of_uint63_opp (tanf (radians np_pi lat)) _ (conj (proj2 (ffin_spec _) FT) eq_refl)) as [FO VO].
    apply (fmul_correct _ _ FO (proj1 T1)). apply rnd_in_range. rewrite VO, Rabs_mult, Rabs_Ropp.
    assert (CB : 10 ^ 30 <= cap).
    { unfold cap. apply Rle_trans with (bpow radix2 100); [|apply bpow_le; lia]. change (bpow radix2 100) with (IZR (2 ^ 100)).
      rewrite (pow_IZR 10 30). apply IZR_le. vm_compute. discriminate. }
    pose proof (Rabs_pos (fval (tanf (radians np_pi lat)))). pose proof (Rabs_pos (fval (tanf (declination_any np_pi sinf cosf doy)))).
    apply Rle_trans with (10 ^ 30 * 1); [apply Rmult_le_compat; lra|lra].
  Qed.
  Lemma arg_near doy lat : (1 <= doy <= 366)%Z -> PrimFloat.is_finite lat = true -> Rabs (fval lat) <= 89 ->
    app (sun_arg np_pi sinf cosf tanf doy lat) (- tan (fval lat * (PI / 180)) * tan (decl_R doy)) (1 / 10 ^ 11).
  Proof.
    intros HD FL BL. unfold sun_arg. pose proof pi_bounds as P.
    assert (R1 : apb (radians np_pi lat) (fval lat * (PI / 180)) (6 / 10 ^ 16) (89 * (175 / 10000))).
    { unfold radians. eapply (b_mul _ _ _ _ 0 (4 / 10 ^ 18) 89 (175 / 10000)); [apply b_exact; assumption|apply b_deg|lra..]. }
    assert (C : 0.0087 <= cos (fval lat * (PI / 180))).
    { apply cos_89. rewrite Rabs_mult, (Rabs_pos_eq (PI / 180)) by lra. apply Rmult_le_compat_r; lra. }
    assert (T1 : apb (tanf (radians np_pi lat)) (tan (fval lat * (PI / 180))) (1 / 10 ^ 11) 115).
    { eapply b_weaken; [apply (near_tan tanf _ _ (6 / 10 ^ 16) (89 * (175 / 10000)) 0.0087 115 (9 / 10 ^ 12)); [exact GT|exact R1|lra|lra|exact C| |]|lra|lra].
      - eapply Rle_trans; [apply (tan_one _ 0.0087); lra|lra].
      - apply Rmult_le_reg_r with ((0.0087 - 6 / 10 ^ 16) * (0.0087 - 6 / 10 ^ 16)); [lra|]. unfold Rdiv at 1. rewrite Rmult_assoc, Rinv_l by lra. lra. }
    assert (T2 : apb (- tanf (radians np_pi lat))%num (- tan (fval lat * (PI / 180))) (1 / 10 ^ 11) 115).
    { destruct T1 as [[F E] B]. destruct (of_uint63_opp (tanf (radians np_pi lat)) _ (conj F eq_refl)) as [FO VO].
      split; [split; [exact FO|]|rewrite Rabs_Ropp; exact B]. change (- tanf (radians np_pi lat))%num with (- tanf (radians np_pi lat))%float. rewrite VO.
      replace (- fval (tanf (radians np_pi lat)) - - tan (fval lat * (PI / 180))) with (- (fval (tanf (radians np_pi lat)) - tan (fval lat * (PI / 180)))) by ring.
      rewrite Rabs_Ropp. exact E. }
    apply (b_mul _ _ _ _ (1 / 10 ^ 11) (2 / 10 ^ 14) 115 (52 / 100) (1 / 10 ^ 11) 60 T2 (tan_decl doy HD)); lra.
  Qed.

  (** ** sunrise, noon and sunset before the adjustment *)
  Definition share (doy : Z) (lat : float) : float := (acosf (sun_arg np_pi sinf cosf tanf doy lat) / np_pi)%num.
  Lemma raw_cases doy lon lat tz : (1 <= doy <= 366)%Z -> degrees lat ->
    let arg := fval (sun_arg np_pi sinf cosf tanf doy lat) in
    let noon := moved doy lon tz n1 in
    (arg < -1 /\ raw_any np_pi sinf cosf tanf acosf doy lon lat tz = ((noon - n_ofZ 12)%num, noon, (noon + n_ofZ 12)%num)) \/
    (1 < arg /\ raw_any np_pi sinf cosf tanf acosf doy lon lat tz = (noon, noon, noon)) \/
    (Rabs arg <= 1 /\ raw_any np_pi sinf cosf tanf acosf doy lon lat tz
       = (moved doy lon tz (n1 - share doy lat)%num, noon, moved doy lon tz (n1 + share doy lat)%num)).
  Proof.
    intros HD HA arg noon. pose proof (arg_finite doy lat HD HA) as FA. destruct one_fin as [F1 V1].
    destruct (ofZ_val (-1) ltac:(lia)) as [FM VM].
    pose proof (fltb_val _ _ FA FM) as C1. pose proof (fltb_val _ _ F1 FA) as C2. rewrite VM in C1. rewrite V1 in C2. fold arg in C1, C2.
    unfold raw_any. cbv zeta.
    change (sun_arg np_pi sinf cosf tanf doy lat <? n_ofZ (-1))%num with (sun_arg np_pi sinf cosf tanf doy lat <? n_ofZ (-1))%float.
    change (n1 <? sun_arg np_pi sinf cosf tanf doy lat)%num with (n1 <? sun_arg np_pi sinf cosf tanf doy lat)%float.
    destruct (sun_arg np_pi sinf cosf tanf doy lat <? n_ofZ (-1))%float; destruct (n1 <? sun_arg np_pi sinf cosf tanf doy lat)%float.
    - exfalso. lra.
    - left. split; [exact C1|reflexivity].
    - right; left. split; [exact C2|reflexivity].
    - right; right. split; [apply Rabs_le; lra|reflexivity].
  Qed.
  Lemma share_range doy lat : (1 <= doy <= 366)%Z -> degrees lat -> Rabs (fval (sun_arg np_pi sinf cosf tanf doy lat)) <= 1 ->
    ffin (share doy lat) /\ 0 <= fval (share doy lat) <= 1.
  Proof.
    intros HD HA HB. pose proof (arg_finite doy lat HD HA) as FA. destruct (GA _ (proj1 (ffin_spec _) FA) HB) as (F & R & _). apply ffin_spec in F.
    destruct np_pi_bounds as [FP NP]. unfold share. change (acosf (sun_arg np_pi sinf cosf tanf doy lat) / np_pi)%num with (acosf (sun_arg np_pi sinf cosf tanf doy lat) / np_pi)%float.
    set (o := acosf _) in *.
    assert (Q : 0 <= fval o / fval np_pi <= 1).
    { split; [apply Rmult_le_pos; [lra|left; apply Rinv_0_lt_compat; lra]|]. apply Rmult_le_reg_r with (fval np_pi); [lra|]. unfold Rdiv. rewrite Rmult_assoc, Rinv_l by lra. lra. }
    pose proof cap_9. destruct (fdiv_correct o np_pi F ltac:(lra)) as [E FE]; [apply rnd_in_range; rewrite Rabs_pos_eq; lra|].
    split; [exact FE|]. rewrite E. split; [apply rnd_nonneg; lra|]. destruct one_fin as [_ V1]. rewrite <- V1. apply rnd_le_fval. rewrite V1. lra.
  Qed.
  Lemma noon_near doy lon tz : (1 <= doy <= 366)%Z -> degrees lon -> zone tz -> apb (moved doy lon tz n1) (noon_R doy (fval lon) (fval tz)) (1 / 10 ^ 12) 200.
  Proof.
    intros HD HL HZ. eapply b_weaken; [eapply b_eq; [apply (moved_near doy lon tz n1 1 0 HD HL HZ); [|lra]|ring]|lra|lra].
    destruct one_fin as [F1 V1]. split; [rewrite <- V1; apply app_exact; exact F1|rewrite Rabs_R1; lra].
  Qed.
  Lemma raw_facts doy lon lat tz : (1 <= doy <= 366)%Z -> degrees lon -> degrees lat -> zone tz ->
    exists rise noon set, raw_any np_pi sinf cosf tanf acosf doy lon lat tz = (rise, noon, set) /\
      ffin rise /\ ffin set /\ apb noon (noon_R doy (fval lon) (fval tz)) (1 / 10 ^ 12) 200 /\
      fval rise <= fval noon <= fval set /\ fval noon - 12 - 4 / 10 ^ 12 <= fval rise /\ fval set <= fval noon + 12 + 4 / 10 ^ 12.
  Proof.
    intros HD HL HA HZ. pose proof (noon_near doy lon tz HD HL HZ) as NN. pose proof NN as [N1 N2]. pose proof (app_bound _ _ _ _ N1 N2) as BN.
    destruct N1 as [FN EN]. destruct (ofZ_val 12 ltac:(lia)) as [F12 V12]. destruct one_fin as [F1 V1].
    destruct (raw_cases doy lon lat tz HD HA) as [[C E]|[[C E]|[C E]]]; rewrite E; do 3 eexists; (split; [reflexivity|]).
    - set (n := moved doy lon tz n1) in *.
      assert (S : apb (n - n_ofZ 12)%num (fval n - 12) (1 / 10 ^ 12) 300) by (eapply (b_sub _ _ _ _ 0 0 201 12); [apply b_exact; [apply ffin_spec; exact FN|lra]|apply (b_Z 12); num|lra..]).
      assert (A : apb (n + n_ofZ 12)%num (fval n + 12) (1 / 10 ^ 12) 300) by (eapply (b_add _ _ _ _ 0 0 201 12); [apply b_exact; [apply ffin_spec; exact FN|lra]|apply (b_Z 12); num|lra..]).
      destruct S as [[FS ES] _], A as [[FA EA] _]. apply Flocq.Core.Raux.Rabs_le_inv in ES, EA. repeat split; try assumption; try lra; apply NN.
    - repeat split; try assumption; try lra; apply NN.
    - destruct (share_range doy lat HD HA C) as [FW RW]. set (w := share doy lat) in *. clearbody w.
      assert (SM : ffin (n1 - w)%num /\ fval (n1 - w)%num = rnd (1 - fval w)).
      { destruct (fsub_correct n1 w F1 FW) as [E1 F']; [apply rnd_in_range; rewrite V1, Rabs_pos_eq; pose proof cap_9; lra|]. rewrite V1 in E1. split; [exact F'|exact E1]. }
      assert (SP : ffin (n1 + w)%num /\ fval (n1 + w)%num = rnd (1 + fval w)).
      { destruct (fadd_correct n1 w F1 FW) as [E1 F']; [apply rnd_in_range; rewrite V1, Rabs_pos_eq; pose proof cap_9; lra|]. rewrite V1 in E1. split; [exact F'|exact E1]. }
      destruct SM as [FM VM], SP as [FP VP].
      assert (RM : 0 <= fval (n1 - w)%num <= 1) by (rewrite VM; split; [apply rnd_nonneg; lra|rewrite <- V1; apply rnd_le_fval; rewrite V1; lra]).
      assert (V2 : fval 2%float = 2) by (apply fv_2).
      assert (RP : 1 <= fval (n1 + w)%num <= 2) by (rewrite VP; split; [rewrite <- V1 at 1; apply rnd_ge_fval; rewrite V1; lra|rewrite <- V2; apply rnd_le_fval; rewrite V2; lra]).
      assert (XM : apb (moved doy lon tz (n1 - w)%num) (noon_R doy (fval lon) (fval tz) + 12 * (fval (n1 - w)%num - 1)) (1 / 10 ^ 12) 200).
      { eapply b_weaken; [apply (moved_near doy lon tz (n1 - w)%num (fval (n1 - w)%num) 0 HD HL HZ); [apply b_exact; [apply ffin_spec; exact FM|rewrite Rabs_pos_eq; lra]|lra]|lra|lra]. }
      assert (XP : apb (moved doy lon tz (n1 + w)%num) (noon_R doy (fval lon) (fval tz) + 12 * (fval (n1 + w)%num - 1)) (1 / 10 ^ 12) 200).
      { eapply b_weaken; [apply (moved_near doy lon tz (n1 + w)%num (fval (n1 + w)%num) 0 HD HL HZ); [apply b_exact; [apply ffin_spec; exact FP|rewrite Rabs_pos_eq; lra]|lra]|lra|lra]. }
      assert (MM : fval (moved doy lon tz (n1 - w)%num) <= fval (moved doy lon tz n1)) by (apply moved_mono; try assumption; rewrite ?V1, ?Rabs_R1, ?Rabs_pos_eq; lra).
      assert (MP : fval (moved doy lon tz n1) <= fval (moved doy lon tz (n1 + w)%num)) by (apply moved_mono; try assumption; rewrite ?V1, ?Rabs_R1, ?Rabs_pos_eq; lra).
      destruct XM as [[FXM EXM] _], XP as [[FXP EXP] _]. apply Flocq.Core.Raux.Rabs_le_inv in EXM, EXP, EN.
      split; [exact FXM|]. split; [exact FXP|]. split; [exact NN|]. split; [split; [exact MM|exact MP]|]. lra.
  Qed.
  (** near the exact times when the sun rises and sets *)
  Lemma raw_near doy lon lat tz : (1 <= doy <= 366)%Z -> degrees lon -> PrimFloat.is_finite lat = true -> Rabs (fval lat) <= 89 -> zone tz ->
    let u := - tan (fval lat * (PI / 180)) * tan (decl_R doy) in
    let noon := noon_R doy (fval lon) (fval tz) in
    Rabs u <= 0.999 -> exists rise set, raw_any np_pi sinf cosf tanf acosf doy lon lat tz = (rise, moved doy lon tz n1, set) /\
      app rise (noon - 12 * (acos u / PI)) (2 / 10 ^ 9) /\ app set (noon + 12 * (acos u / PI)) (2 / 10 ^ 9).
  Proof.
    intros HD HL FL BL HZ u noon HU. assert (HA : degrees lat) by (split; [exact FL|lra]). pose proof pi_bounds as P.
    pose proof (arg_near doy lat HD FL BL) as [FA EA]. fold u in EA.
    assert (BA : Rabs (fval (sun_arg np_pi sinf cosf tanf doy lat)) <= 0.9991).
    { replace (fval (sun_arg np_pi sinf cosf tanf doy lat)) with ((fval (sun_arg np_pi sinf cosf tanf doy lat) - u) + u) by ring. eapply Rle_trans; [apply Rabs_triang|lra]. }
    destruct (raw_cases doy lon lat tz HD HA) as [[C E]|[[C E]|[C E]]]; [apply Flocq.Core.Raux.Rabs_le_inv in BA; lra..|].
    rewrite E. do 2 eexists. split; [reflexivity|].
    destruct (GA _ (proj1 (ffin_spec _) FA) C) as (FO & _ & EO). apply ffin_spec in FO.
    assert (O : apb (acosf (sun_arg np_pi sinf cosf tanf doy lat)) (acos u) (26 / 10 ^ 11) 3.1416).
    { split; [split; [exact FO|]|rewrite Rabs_pos_eq; pose proof (acos_bound u); lra].
      replace (fval (acosf (sun_arg np_pi sinf cosf tanf doy lat)) - acos u)
        with ((fval (acosf (sun_arg np_pi sinf cosf tanf doy lat)) - acos (fval (sun_arg np_pi sinf cosf tanf doy lat))) + (acos (fval (sun_arg np_pi sinf cosf tanf doy lat)) - acos u)) by ring.
      eapply Rle_trans; [apply Rabs_triang|]. pose proof (acos_lipschitz _ u BA ltac:(lra)) as L. lra. }
    assert (W : apb (share doy lat) (acos u / PI) (9 / 10 ^ 11) 1.05) by (unfold share; eapply (b_divpi _ _ (26 / 10 ^ 11) 3.1416); [exact O|lra..]).
    assert (B1 : apb n1 1 0 1) by (apply (b_Z 1); num).
    assert (XM : apb (n1 - share doy lat)%num (1 - acos u / PI) (1 / 10 ^ 10) (21 / 10)) by (eapply (b_sub _ _ _ _ 0 (9 / 10 ^ 11) 1 1.05); [exact B1|exact W|lra..]).
    assert (XP : apb (n1 + share doy lat)%num (1 + acos u / PI) (1 / 10 ^ 10) (21 / 10)) by (eapply (b_add _ _ _ _ 0 (9 / 10 ^ 11) 1 1.05); [exact B1|exact W|lra..]).
    split.
    - destruct (moved_near doy lon tz _ _ (1 / 10 ^ 10) HD HL HZ XM ltac:(lra)) as [M _].
      apply app_eq with (noon_R doy (fval lon) (fval tz) + 12 * (1 - acos u / PI - 1)); [eapply app_weaken; [exact M|lra]|unfold noon; ring].
    - destruct (moved_near doy lon tz _ _ (1 / 10 ^ 10) HD HL HZ XP ltac:(lra)) as [M _].
      apply app_eq with (noon_R doy (fval lon) (fval tz) + 12 * (1 + acos u / PI - 1)); [eapply app_weaken; [exact M|lra]|unfold noon; ring].
  Qed.
End Sun.

(** ** the adjustment to 0..24 *)
Definition late (x : float) : float := if (x <? n0)%num then (x + n_ofZ 24)%num else x.
Definition early (x : float) : float := if (x >? n_ofZ 24)%num then (x - n_ofZ 24)%num else x.
Lemma late_near x r e : app x r e -> Rabs r <= 300 -> 0 <= e <= 1 -> exists k, (k = 0 \/ k = 24) /\ (r < - e -> k = 24) /\ (e <= r -> k = 0) /\ app (late x) (r + k) (e + 1 / 10 ^ 12).
Proof.
  intros H HB He. pose proof H as [F E]. unfold late. change (x <? n0)%num with (x <? n0)%float. pose proof (fltb_val x n0 F ffin_zero) as C. change (fval n0) with (fval 0%float) in C. rewrite fv_0 in C.
  apply Flocq.Core.Raux.Rabs_le_inv in E. destruct (x <? n0)%float.
  - exists 24. split; [right; reflexivity|]. split; [intro; reflexivity|]. split; [intro; exfalso; lra|]. apply (b_add x (n_ofZ 24) r 24 e 0 300 24 (e + 1 / 10 ^ 12) 324 (conj H HB) (b_Z 24 24 ltac:(num) ltac:(num))); lra.
  - exists 0. split; [left; reflexivity|]. split; [intro; exfalso; lra|]. split; [intro; reflexivity|]. split; [exact F|]. apply Rabs_le. lra.
Qed.
Lemma early_near x r e : app x r e -> Rabs r <= 300 -> 0 <= e <= 1 -> exists k, (k = 0 \/ k = 24) /\ (24 + e < r -> k = 24) /\ (r <= 24 - e -> k = 0) /\ app (early x) (r - k) (e + 1 / 10 ^ 12).
Proof.
  intros H HB He. pose proof H as [F E]. destruct (ofZ_val 24 ltac:(lia)) as [F24 V24]. unfold early. change (x >? n_ofZ 24)%num with (n_ofZ 24 <? x)%float. pose proof (fltb_val _ x F24 F) as C. rewrite V24 in C.
  apply Flocq.Core.Raux.Rabs_le_inv in E. destruct (n_ofZ 24 <? x)%float.
  - exists 24. split; [right; reflexivity|]. split; [intro; reflexivity|]. split; [intro; exfalso; lra|]. apply (b_sub x (n_ofZ 24) r 24 e 0 300 24 (e + 1 / 10 ^ 12) 324 (conj H HB) (b_Z 24 24 ltac:(num) ltac:(num))); lra.
  - exists 0. split; [left; reflexivity|]. split; [intro; exfalso; lra|]. split; [intro; reflexivity|]. split; [exact F|]. apply Rabs_le. lra.
Qed.
Lemma late_range x : ffin x -> -24 <= fval x <= 24 -> 0 <= fval (late x) <= 24.
Proof.
  intros F B. destruct (ofZ_val 24 ltac:(lia)) as [F24 V24]. unfold late. change (x <? n0)%num with (x <? n0)%float. pose proof (fltb_val x n0 F ffin_zero) as C. change (fval n0) with (fval 0%float) in C. rewrite fv_0 in C.
  destruct (x <? n0)%float; [|lra]. destruct (fadd_correct x (n_ofZ 24) F F24) as [E _]; [apply rnd_in_range; rewrite V24; pose proof cap_9; apply Rabs_le; lra|].
  change (x + n_ofZ 24)%num with (x + n_ofZ 24)%float. rewrite E, V24. split; [apply rnd_nonneg; lra|]. rewrite <- V24 at 2. apply rnd_le_fval. rewrite V24. lra.
Qed.
Lemma early_range x : ffin x -> 0 <= fval x <= 48 -> 0 <= fval (early x) <= 24.
Proof.
  intros F B. destruct (ofZ_val 24 ltac:(lia)) as [F24 V24]. unfold early. change (x >? n_ofZ 24)%num with (n_ofZ 24 <? x)%float. pose proof (fltb_val _ x F24 F) as C. rewrite V24 in C.
  destruct (n_ofZ 24 <? x)%float; [|lra]. destruct (fsub_correct x (n_ofZ 24) F F24) as [E _]; [apply rnd_in_range; rewrite V24; pose proof cap_9; apply Rabs_le; lra|].
  change (x - n_ofZ 24)%num with (x - n_ofZ 24)%float. rewrite E, V24. split; [apply rnd_nonneg; lra|]. rewrite <- V24 at 2. apply rnd_le_fval. rewrite V24. lra.
Qed.
Lemma length_near x y r s e : app x r e -> app y s e -> Rabs r <= 300 -> Rabs s <= 300 -> 0 <= e <= 1 -> app (y - x)%num (s - r) (2 * e + 1 / 10 ^ 12).
Proof. intros X Y R S He. apply (b_sub y x s r e e 300 300 (2 * e + 1 / 10 ^ 12) 600 (conj Y S) (conj X R)); lra. Qed.
Lemma length_sign x y : ffin x -> ffin y -> fval x <= fval y -> Rabs (fval x) <= 300 -> Rabs (fval y) <= 300 -> ffin (y - x)%num /\ 0 <= fval (y - x)%num /\ (fval x = fval y -> fval (y - x)%num = 0).
Proof.
  intros FX FY L BX BY. pose proof cap_9. apply Flocq.Core.Raux.Rabs_le_inv in BX, BY.
  destruct (fsub_correct y x FY FX) as [E F]; [apply rnd_in_range, Rabs_le; lra|]. change (y - x)%num with (y - x)%float.
  split; [exact F|]. rewrite E. split; [apply rnd_nonneg; lra|]. intros ->. rewrite Rminus_diag_eq by reflexivity. apply rnd_0.
Qed.
