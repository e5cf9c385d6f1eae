(** Potential radiation in binary64. *)
From Coq Require Import ZArith List Bool Lia Reals Lra Floats.
From Flocq Require Import Core IEEE754.BinarySingleNaN IEEE754.PrimFloat.
From Verif Require Import Num Cal Series Trans RadModel SpecRad F64 CascadeFloat CascadeRound FiveRound AggRound CourseRound SpecSineRound ErrCalc SineRound
  PotAnyModel SpecPotAny RadAny RadPot.
Import ListNotations.
Open Scope R_scope.

(** ** single steps with a chosen error *)
Lemma u64_tiny : 0 < u64 <= 12 / 10 ^ 17.
Proof. unfold u64. lra. Qed.
Lemma cap_9 : 100 * cap >= 10 ^ 9.
Proof. pose proof cap_1. lra. Qed.
Lemma step_add x y r s e f A B g : app x r e -> app y s f -> Rabs r <= A -> Rabs s <= B -> A + e + (B + f) <= 10 ^ 9 ->
  e + f + 12 / 10 ^ 17 * (A + e + (B + f)) <= g -> app (x + y)%num (r + s) g.
Proof.
  intros HX HY HA HB HC HG. pose proof cap_9. pose proof u64_tiny. eapply app_weaken; [apply (app_add x y r s e f A B); try assumption; lra|].
  pose proof (Rabs_pos r). pose proof (Rabs_pos s). destruct HX as [_ EX], HY as [_ EY]. pose proof (Rabs_pos (fval x - r)). pose proof (Rabs_pos (fval y - s)).
  assert (u64 * (A + e + (B + f)) <= 12 / 10 ^ 17 * (A + e + (B + f))) by (apply Rmult_le_compat_r; lra). lra.
Qed.
Lemma step_sub x y r s e f A B g : app x r e -> app y s f -> Rabs r <= A -> Rabs s <= B -> A + e + (B + f) <= 10 ^ 9 ->
  e + f + 12 / 10 ^ 17 * (A + e + (B + f)) <= g -> app (x - y)%num (r - s) g.
Proof.
  intros HX HY HA HB HC HG. pose proof cap_9. pose proof u64_tiny. eapply app_weaken; [apply (app_sub x y r s e f A B); try assumption; lra|].
  pose proof (Rabs_pos r). pose proof (Rabs_pos s). destruct HX as [_ EX], HY as [_ EY]. pose proof (Rabs_pos (fval x - r)). pose proof (Rabs_pos (fval y - s)).
  assert (u64 * (A + e + (B + f)) <= 12 / 10 ^ 17 * (A + e + (B + f))) by (apply Rmult_le_compat_r; lra). lra.
Qed.
Lemma step_mul x y r s e f A B g : app x r e -> app y s f -> Rabs r <= A -> Rabs s <= B -> (A + e) * (B + f) <= 10 ^ 9 ->
  e * (B + f) + A * f + (12 / 10 ^ 17 * ((A + e) * (B + f)) + 1 / 10 ^ 20) <= g -> app (x * y)%num (r * s) g.
Proof.
  intros HX HY HA HB HC HG. pose proof cap_9. pose proof u64_tiny. pose proof eta_tiny as ET. pose proof eta64_pos as E0.
  eapply app_weaken; [apply (app_mul x y r s e f A B); try assumption; lra|].
  pose proof (Rabs_pos r). pose proof (Rabs_pos s). destruct HX as [_ EX], HY as [_ EY]. pose proof (Rabs_pos (fval x - r)). pose proof (Rabs_pos (fval y - s)).
  assert (P : 0 <= (A + e) * (B + f)) by (apply Rmult_le_pos; lra).
  assert (u64 * ((A + e) * (B + f)) <= 12 / 10 ^ 17 * ((A + e) * (B + f))) by (apply Rmult_le_compat_r; lra). lra.
Qed.
(** by an exact integer *)
Lemma step_divZ x z r e A g : (0 < z <= 2 ^ 53)%Z -> app x r e -> Rabs r <= A -> A + e <= 10 ^ 9 ->
  (e + 12 / 10 ^ 17 * (A + e)) / IZR z + 1 / 10 ^ 20 <= g -> app (x / n_ofZ z)%num (r / IZR z) g.
Proof.
  intros Z HX HA HC HG. destruct (ofZ_val z ltac:(lia)) as [FZ VZ]. pose proof cap_9. pose proof u64_tiny. pose proof eta_tiny as ET. pose proof eta64_pos as E0.
  assert (Z1 : 1 <= IZR z) by (apply IZR_le; lia).
  pose proof (Rabs_pos r). destruct HX as [FX EX]. pose proof (Rabs_pos (fval x - r)).
  assert (L : (A + e) / IZR z <= A + e).
  { apply Rmult_le_reg_r with (IZR z); [lra|]. unfold Rdiv. rewrite Rmult_assoc, Rinv_l by lra. nra. }
  assert (P : 0 <= (A + e) / IZR z) by (apply Rmult_le_pos; [lra|apply Rlt_le, Rinv_0_lt_compat; lra]).
  rewrite <- VZ at 1. eapply app_weaken; [apply (app_div x (n_ofZ z) r e A (IZR z) (conj FX EX) HA); [lra|rewrite VZ, Rabs_pos_eq; lra|lra]|].
  assert (u64 * ((A + e) / IZR z) <= 12 / 10 ^ 17 * ((A + e) / IZR z)) by (apply Rmult_le_compat_r; lra).
  replace ((e + 12 / 10 ^ 17 * (A + e)) / IZR z) with (e / IZR z + 12 / 10 ^ 17 * ((A + e) / IZR z)) in HG by (unfold Rdiv; ring). lra.
Qed.
Lemma step_lit m k g : (Z.abs m <= 10 ^ 9)%Z -> (0 < 10 ^ k <= 2 ^ 53)%Z -> 12 / 10 ^ 17 * (IZR (Z.abs m)) / IZR (10 ^ k) + 1 / 10 ^ 20 <= g ->
  app (lit m k) (IZR m / IZR (10 ^ k)) g.
Proof.
  intros M K G. unfold lit. assert (MZ : IZR (Z.abs m) <= 10 ^ 9) by (replace (10 ^ 9) with (IZR (10 ^ 9)) by (cbn; lra); apply IZR_le; exact M).
  apply (step_divZ (n_ofZ m) (10 ^ k) (IZR m) 0 (IZR (Z.abs m))); [exact K|apply app_ofZ; lia|rewrite <- abs_IZR; lra|lra|].
  replace ((0 + 12 / 10 ^ 17 * (IZR (Z.abs m) + 0)) / IZR (10 ^ k)) with (12 / 10 ^ 17 * (IZR (Z.abs m)) / IZR (10 ^ k)) by (unfold Rdiv; ring). exact G.
Qed.

(** ** steps that carry a bound along *)
Definition apb (x : float) (r e A : R) : Prop := app x r e /\ Rabs r <= A.
Lemma b_add x y r s e f A B g C : apb x r e A -> apb y s f B -> A + e + (B + f) <= 10 ^ 9 ->
  e + f + 12 / 10 ^ 17 * (A + e + (B + f)) <= g -> A + B <= C -> apb (x + y)%num (r + s) g C.
Proof.
  intros [X1 X2] [Y1 Y2] H1 H2 H3. split; [exact (step_add x y r s e f A B g X1 Y1 X2 Y2 H1 H2)|].
  eapply Rle_trans; [apply Rabs_triang|]. lra.
Qed.
Lemma b_sub x y r s e f A B g C : apb x r e A -> apb y s f B -> A + e + (B + f) <= 10 ^ 9 ->
  e + f + 12 / 10 ^ 17 * (A + e + (B + f)) <= g -> A + B <= C -> apb (x - y)%num (r - s) g C.
Proof.
  intros [X1 X2] [Y1 Y2] H1 H2 H3. split; [exact (step_sub x y r s e f A B g X1 Y1 X2 Y2 H1 H2)|].
  unfold Rminus. eapply Rle_trans; [apply Rabs_triang|]. rewrite Rabs_Ropp. lra.
Qed.
Lemma b_mul x y r s e f A B g C : apb x r e A -> apb y s f B -> (A + e) * (B + f) <= 10 ^ 9 ->
  e * (B + f) + A * f + (12 / 10 ^ 17 * ((A + e) * (B + f)) + 1 / 10 ^ 20) <= g -> A * B <= C -> apb (x * y)%num (r * s) g C.
Proof.
  intros [X1 X2] [Y1 Y2] H1 H2 H3. split; [exact (step_mul x y r s e f A B g X1 Y1 X2 Y2 H1 H2)|].
  rewrite Rabs_mult. eapply Rle_trans; [|exact H3]. apply Rmult_le_compat; try apply Rabs_pos; assumption.
Qed.
Lemma b_divZ x z r e A g C : (0 < z <= 2 ^ 53)%Z -> apb x r e A -> A + e <= 10 ^ 9 ->
  (e + 12 / 10 ^ 17 * (A + e)) / IZR z + 1 / 10 ^ 20 <= g -> A / IZR z <= C -> apb (x / n_ofZ z)%num (r / IZR z) g C.
Proof.
  intros Z [X1 X2] H1 H2 H3. split; [exact (step_divZ x z r e A g Z X1 X2 H1 H2)|].
  assert (P : 0 < / IZR z) by (apply Rinv_0_lt_compat, IZR_lt; lia).
  unfold Rdiv in *. rewrite Rabs_mult, (Rabs_pos_eq (/ IZR z)) by lra. eapply Rle_trans; [|exact H3]. apply Rmult_le_compat_r; lra.
Qed.
Lemma b_Z z C : (Z.abs z <= 2 ^ 53)%Z -> IZR (Z.abs z) <= C -> apb (n_ofZ z) (IZR z) 0 C.
Proof. intros H L. split; [apply app_ofZ; exact H|]. rewrite <- abs_IZR. exact L. Qed.
Lemma b_lit m k g C : (Z.abs m <= 10 ^ 9)%Z -> (0 < 10 ^ k <= 2 ^ 53)%Z -> 12 / 10 ^ 17 * (IZR (Z.abs m)) / IZR (10 ^ k) + 1 / 10 ^ 20 <= g ->
  IZR (Z.abs m) / IZR (10 ^ k) <= C -> apb (lit m k) (IZR m / IZR (10 ^ k)) g C.
Proof.
  intros H1 H2 H3 H4. split; [exact (step_lit m k g H1 H2 H3)|].
  assert (P : 0 < / IZR (10 ^ k)) by (apply Rinv_0_lt_compat, IZR_lt; lia).
  unfold Rdiv in *. rewrite Rabs_mult, <- abs_IZR, (Rabs_pos_eq (/ _)) by lra. exact H4.
Qed.
Lemma b_exact x A : PrimFloat.is_finite x = true -> Rabs (fval x) <= A -> apb x (fval x) 0 A.
Proof. intros F H. split; [apply app_exact, ffin_spec, F|exact H]. Qed.
Lemma b_pi : apb np_pi PI (2 / 10 ^ 16) (315 / 100).
Proof.
  pose proof PI_close as P. split; [split; [unfold ffin; vm_compute; reflexivity|exact P]|].
  pose proof PI_RGT_0. assert (V : fval np_pi = 884279719003555 / 281474976710656) by (unfold fval; vm_compute; lra).
  apply Flocq.Core.Raux.Rabs_le_inv in P. rewrite Rabs_pos_eq; lra.
Qed.
Lemma b_cos cosf x r e A g : good_cosine cosf -> apb x r e A -> A <= 999 -> e <= 1 -> 1 / 10 ^ 15 + e <= g -> apb (cosf x) (cos r) g 1.
Proof.
  intros G [X1 X2] HA HE HG. destruct (app_cos cosf x r e G X1 ltac:(lra) HE) as [H _].
  split; [eapply app_weaken; [exact H|exact HG]|apply Rabs_le, COS_bound].
Qed.
Lemma sin_lipschitz a b : Rabs (sin a - sin b) <= Rabs (a - b).
Proof. rewrite <- !cos_shift. eapply Rle_trans; [apply cos_lipschitz|]. rewrite (Rabs_minus_sym a b). right. f_equal. ring. Qed.
Lemma b_sin sinf x r e A g : good_sine sinf -> apb x r e A -> A <= 999 -> e <= 1 -> 1 / 10 ^ 15 + e <= g -> apb (sinf x) (sin r) g 1.
Proof.
  intros G [X1 X2] HA HE HG. pose proof (app_bound _ _ _ _ X1 X2) as B. destruct X1 as [F E].
  destruct (G x) as (FC & C1 & CE); [apply ffin_spec; exact F|lra|].
  split; [|apply Rabs_le, SIN_bound]. split; [apply ffin_spec; exact FC|].
  replace (fval (sinf x) - sin r) with ((fval (sinf x) - sin (fval x)) + (sin (fval x) - sin r)) by ring.
  eapply Rle_trans; [apply Rabs_triang|]. pose proof (sin_lipschitz (fval x) r). lra.
Qed.
Lemma b_eq x r r' e A : apb x r e A -> r = r' -> apb x r' e A.
Proof. intros H <-. exact H. Qed.

(** ** the sun *)
Ltac num := repeat match goal with |- context [Z.pow ?a ?b] => let v := eval vm_compute in (Z.pow a b) in change (Z.pow a b) with v end;
  cbn [Z.abs]; first [lia|lra].
Section Sun.
  Variables sinf cosf : float -> float.
  Hypothesis GC : good_cosine cosf.
  Hypothesis GS : good_sine sinf.
  Lemma b_365 x r e A g C : apb x r e A -> A + e <= 10 ^ 4 -> (e + 2 / 10 ^ 16 * (A + e)) / 365 + 1 / 10 ^ 20 <= g -> A / 365 <= C ->
    apb (x / lit 36525 2)%num (r / 365.25) g C.
  Proof.
    intros [X1 X2] H1 H2 H3.
    assert (V : fval (lit 36525 2) = 365.25) by (unfold fval; vm_compute; lra).
    pose proof (app_bound _ _ _ _ X1 X2) as BX.
    pose proof (Rabs_pos r) as P1. pose proof X1 as [_ EX]. pose proof (Rabs_pos (fval x - r)) as P2.
    pose proof cap_9. pose proof u64_tiny. pose proof eta_tiny as ET. pose proof eta64_pos as E0.
    split.
    - rewrite <- V. eapply app_weaken; [apply (app_div x (lit 36525 2) r e A 365.25 X1 X2); [lra|rewrite V, Rabs_pos_eq; lra|lra]|].
      assert (u64 * ((A + e) / 365.25) <= 12 / 10 ^ 17 * ((A + e) / 365.25)) by (apply Rmult_le_compat_r; lra). lra.
    - unfold Rdiv. rewrite Rabs_mult, (Rabs_pos_eq (/ 365.25)) by lra. lra.
  Qed.
  Lemma decline_near doy : (1 <= doy <= 366)%Z -> apb (decline_any np_pi cosf doy) (sun_decl doy) (1 / 10 ^ 14) (42 / 100).
  Proof.
    intro HD. unfold decline_any, radians, sun_decl.
    assert (D1 : apb (n_ofZ doy - n_ofZ 173)%num (IZR doy - 173) (1 / 10 ^ 13) 539).
    { eapply (b_sub _ _ _ _ 0 0 366 173); [apply b_Z; [lia|apply IZR_le; lia]|apply b_Z; num|lra..]. }
    assert (D2 : apb (n_ofZ 2 * np_pi)%num (2 * PI) (2 / 10 ^ 15) 7).
    { eapply (b_mul _ _ _ _ 0 (2 / 10 ^ 16) 2 (315 / 100)); [apply (b_Z 2); num|apply b_pi|lra..]. }
    assert (D3 : apb (n_ofZ 2 * np_pi * (n_ofZ doy - n_ofZ 173))%num (2 * PI * (IZR doy - 173)) (3 / 10 ^ 12) 3773).
    { eapply (b_mul _ _ _ _ (2 / 10 ^ 15) (1 / 10 ^ 13) 7 539); [exact D2|exact D1|lra..]. }
    assert (D4 : apb (n_ofZ 2 * np_pi * (n_ofZ doy - n_ofZ 173) / lit 36525 2)%num (2 * PI * (IZR doy - 173) / 365.25) (11 / 10 ^ 15) 11).
    { eapply (b_365 _ _ (3 / 10 ^ 12) 3773); [exact D3|lra..]. }
    assert (D5 : apb (cosf (n_ofZ 2 * np_pi * (n_ofZ doy - n_ofZ 173) / lit 36525 2)%num) (cos (2 * PI * (IZR doy - 173) / 365.25)) (12 / 10 ^ 15) 1).
    { eapply (b_cos _ _ _ (11 / 10 ^ 15) 11); [exact GC|exact D4|lra..]. }
    assert (P1 : apb (np_pi / n_ofZ 180)%num (PI / 180) (4 / 10 ^ 18) (175 / 10000)).
    { eapply (b_divZ _ 180 _ (2 / 10 ^ 16) (315 / 100)); [lia|apply b_pi|lra..]. }
    assert (L1 : apb (lit 2343697 5) 23.43697 (3 / 10 ^ 15) 24).
    { eapply b_eq; [apply (b_lit 2343697 5); [num..]|num]. }
    assert (T : apb (lit 2343697 5 * (np_pi / n_ofZ 180))%num (23.43697 * (PI / 180)) (3 / 10 ^ 16) (42 / 100)).
    { eapply (b_mul _ _ _ _ (3 / 10 ^ 15) (4 / 10 ^ 18) 24 (175 / 10000)); [exact L1|exact P1|lra..]. }
    eapply (b_mul _ _ _ _ (3 / 10 ^ 16) (12 / 10 ^ 15) (42 / 100) 1); [exact T|exact D5|lra..].
  Qed.
  Lemma hour_angle_near h mi lon tz : (0 <= h < 24)%Z -> (0 <= mi < 60)%Z -> degrees lon -> zone tz ->
    apb (hour_angle_any np_pi h mi lon tz) (sun_hour_angle h mi (fval lon) (fval tz)) (8 / 10 ^ 14) 60.
  Proof.
    intros HH HM [FL BL] [FZ BZ]. unfold hour_angle_any, sun_hour_angle. cbv zeta.
    assert (A1 : apb (tz * n_ofZ 15)%num (fval tz * 15) (2 / 10 ^ 13) 1500).
    { eapply (b_mul _ _ _ _ 0 0 100 15); [apply b_exact; assumption|apply (b_Z 15); num|lra..]. }
    assert (A2 : apb (lon - tz * n_ofZ 15)%num (fval lon - fval tz * 15) (6 / 10 ^ 13) 2500).
    { eapply (b_sub _ _ _ _ 0 (2 / 10 ^ 13) 1000 1500); [apply b_exact; assumption|exact A1|lra..]. }
    assert (A3 : apb ((lon - tz * n_ofZ 15) * n_ofZ 24)%num ((fval lon - fval tz * 15) * 24) (22 / 10 ^ 12) 60000).
    { eapply (b_mul _ _ _ _ (6 / 10 ^ 13) 0 2500 24); [exact A2|apply (b_Z 24); num|lra..]. }
    assert (A4 : apb ((lon - tz * n_ofZ 15) * n_ofZ 24 / n_ofZ 360)%num ((fval lon - fval tz * 15) * 24 / 360) (9 / 10 ^ 14) 167).
    { eapply (b_divZ _ 360 _ (22 / 10 ^ 12) 60000); [lia|exact A3|lra..]. }
    assert (M1 : apb (n_ofZ mi / n_ofZ 60)%num (IZR mi / 60) (1 / 10 ^ 15) 1).
    { eapply (b_divZ _ 60 _ 0 60); [lia|apply b_Z; [lia|apply IZR_le; lia]|lra..]. }
    assert (M2 : apb (n_ofZ h + n_ofZ mi / n_ofZ 60)%num (IZR h + IZR mi / 60) (5 / 10 ^ 15) 25).
    { eapply (b_add _ _ _ _ 0 (1 / 10 ^ 15) 24 1); [apply b_Z; [lia|apply IZR_le; lia]|exact M1|lra..]. }
    assert (M3 : apb (n_ofZ h + n_ofZ mi / n_ofZ 60 + (lon - tz * n_ofZ 15) * n_ofZ 24 / n_ofZ 360)%num
                     (IZR h + IZR mi / 60 + (fval lon - fval tz * 15) * 24 / 360) (13 / 10 ^ 14) 192).
    { eapply (b_add _ _ _ _ (5 / 10 ^ 15) (9 / 10 ^ 14) 25 167); [exact M2|exact A4|lra..]. }
    assert (M4 : apb ((n_ofZ h + n_ofZ mi / n_ofZ 60 + (lon - tz * n_ofZ 15) * n_ofZ 24 / n_ofZ 360) / n_ofZ 12)%num
                     ((IZR h + IZR mi / 60 + (fval lon - fval tz * 15) * 24 / 360) / 12) (14 / 10 ^ 15) 16).
    { eapply (b_divZ _ 12 _ (13 / 10 ^ 14) 192); [lia|exact M3|lra..]. }
    assert (M5 : apb ((n_ofZ h + n_ofZ mi / n_ofZ 60 + (lon - tz * n_ofZ 15) * n_ofZ 24 / n_ofZ 360) / n_ofZ 12 - n1)%num
                     ((IZR h + IZR mi / 60 + (fval lon - fval tz * 15) * 24 / 360) / 12 - 1) (17 / 10 ^ 15) 17).
    { eapply (b_sub _ _ _ _ (14 / 10 ^ 15) 0 16 1); [exact M4|apply (b_Z 1); num|lra..]. }
    eapply b_eq; [eapply (b_mul _ _ _ _ (2 / 10 ^ 16) (17 / 10 ^ 15) (315 / 100) 17); [apply b_pi|exact M5|lra..]|]. f_equal. f_equal. f_equal. lra.
  Qed.
  Definition raw_height (doy h mi : Z) (lon lat tz : float) : float :=
    let decl := decline_any np_pi cosf doy in
    (sinf decl * sinf (radians np_pi lat) + cosf decl * cosf (radians np_pi lat) * cosf (hour_angle_any np_pi h mi lon tz))%num.
  Lemma raw_height_near doy h mi lon lat tz : (1 <= doy <= 366)%Z -> (0 <= h < 24)%Z -> (0 <= mi < 60)%Z -> degrees lon -> degrees lat -> zone tz ->
    app (raw_height doy h mi lon lat tz) (sun_height doy h mi (fval lon) (fval lat) (fval tz)) (2 / 10 ^ 13).
  Proof.
    intros HD HH HM DL [FA BA] HZ. unfold raw_height, sun_height. cbv zeta.
    pose proof (decline_near doy HD) as DN. pose proof (hour_angle_near h mi lon tz HH HM DL HZ) as HN.
    assert (P1 : apb (np_pi / n_ofZ 180)%num (PI / 180) (4 / 10 ^ 18) (175 / 10000)).
    { eapply (b_divZ _ 180 _ (2 / 10 ^ 16) (315 / 100)); [lia|apply b_pi|lra..]. }
    assert (LA : apb (radians np_pi lat) (fval lat * (PI / 180)) (1 / 10 ^ 14) 18).
    { unfold radians. eapply (b_mul _ _ _ _ 0 (4 / 10 ^ 18) 1000 (175 / 10000)); [apply b_exact; assumption|exact P1|lra..]. }
    assert (S1 : apb (sinf (decline_any np_pi cosf doy)) (sin (sun_decl doy)) (11 / 10 ^ 15) 1) by (eapply (b_sin _ _ _ (1 / 10 ^ 14) (42 / 100)); [exact GS|exact DN|lra..]).
    assert (C1 : apb (cosf (decline_any np_pi cosf doy)) (cos (sun_decl doy)) (11 / 10 ^ 15) 1) by (eapply (b_cos _ _ _ (1 / 10 ^ 14) (42 / 100)); [exact GC|exact DN|lra..]).
    assert (S2 : apb (sinf (radians np_pi lat)) (sin (fval lat * (PI / 180))) (11 / 10 ^ 15) 1) by (eapply (b_sin _ _ _ (1 / 10 ^ 14) 18); [exact GS|exact LA|lra..]).
    assert (C2 : apb (cosf (radians np_pi lat)) (cos (fval lat * (PI / 180))) (11 / 10 ^ 15) 1) by (eapply (b_cos _ _ _ (1 / 10 ^ 14) 18); [exact GC|exact LA|lra..]).
    assert (C3 : apb (cosf (hour_angle_any np_pi h mi lon tz)) (cos (sun_hour_angle h mi (fval lon) (fval tz))) (81 / 10 ^ 15) 1) by (eapply (b_cos _ _ _ (8 / 10 ^ 14) 60); [exact GC|exact HN|lra..]).
    assert (Q1 : apb (sinf (decline_any np_pi cosf doy) * sinf (radians np_pi lat))%num (sin (sun_decl doy) * sin (fval lat * (PI / 180))) (23 / 10 ^ 15) 1)
      by (eapply (b_mul _ _ _ _ (11 / 10 ^ 15) (11 / 10 ^ 15) 1 1); [exact S1|exact S2|lra..]).
    assert (Q2 : apb (cosf (decline_any np_pi cosf doy) * cosf (radians np_pi lat))%num (cos (sun_decl doy) * cos (fval lat * (PI / 180))) (23 / 10 ^ 15) 1)
      by (eapply (b_mul _ _ _ _ (11 / 10 ^ 15) (11 / 10 ^ 15) 1 1); [exact C1|exact C2|lra..]).
    assert (Q3 : apb (cosf (decline_any np_pi cosf doy) * cosf (radians np_pi lat) * cosf (hour_angle_any np_pi h mi lon tz))%num
                     (cos (sun_decl doy) * cos (fval lat * (PI / 180)) * cos (sun_hour_angle h mi (fval lon) (fval tz))) (105 / 10 ^ 15) 1)
      by (eapply (b_mul _ _ _ _ (23 / 10 ^ 15) (81 / 10 ^ 15) 1 1); [exact Q2|exact C3|lra..]).
    apply (b_add _ _ _ _ (23 / 10 ^ 15) (105 / 10 ^ 15) 1 1 _ 2 Q1 Q3); lra.
  Qed.
  Lemma ratio_near doy : (1 <= doy <= 366)%Z -> app (ratio_any np_pi sinf cosf doy) (sun_ratio doy) (5 / 10 ^ 15).
  Proof.
    intro HD. unfold ratio_any, sun_ratio. cbv zeta.
    assert (D2 : apb (n_ofZ 2 * np_pi)%num (2 * PI) (2 / 10 ^ 15) 7).
    { eapply (b_mul _ _ _ _ 0 (2 / 10 ^ 16) 2 (315 / 100)); [apply (b_Z 2); num|apply b_pi|lra..]. }
    assert (D3 : apb (n_ofZ doy / lit 36525 2)%num (IZR doy / 365.25) (3 / 10 ^ 16) (366 / 365)).
    { eapply (b_365 _ _ 0 366); [apply b_Z; [lia|apply IZR_le; lia]|lra..]. }
    assert (B : apb (n_ofZ 2 * np_pi * (n_ofZ doy / lit 36525 2))%num (2 * PI * IZR doy / 365.25) (1 / 10 ^ 14) 8).
    { eapply b_eq; [eapply (b_mul _ _ _ _ (2 / 10 ^ 15) (3 / 10 ^ 16) 7 (366 / 365)); [exact D2|exact D3|lra..]|unfold Rdiv; ring]. }
    set (b := (n_ofZ 2 * np_pi * (n_ofZ doy / lit 36525 2))%num) in *. set (r := (2 * PI * IZR doy / 365.25)%R) in *. clearbody b r.
    assert (B2 : apb (n_ofZ 2 * b)%num (2 * r) (3 / 10 ^ 14) 16).
    { eapply (b_mul _ _ _ _ 0 (1 / 10 ^ 14) 2 8); [apply (b_Z 2); num|exact B|lra..]. }
    assert (T1 : apb (lit 34221 6 * cosf b)%num (0.034221 * cos r) (1 / 10 ^ 15) (4 / 100)).
    { eapply (b_mul _ _ _ _ (1 / 10 ^ 17) (11 / 10 ^ 15) (35 / 1000) 1);
        [eapply b_eq; [apply (b_lit 34221 6); [num..]|num]|eapply (b_cos _ _ _ (1 / 10 ^ 14) 8); [exact GC|exact B|lra..]|lra..]. }
    assert (T2 : apb (lit 128 5 * sinf b)%num (0.00128 * sin r) (1 / 10 ^ 15) (2 / 1000)).
    { eapply (b_mul _ _ _ _ (1 / 10 ^ 17) (11 / 10 ^ 15) (2 / 1000) 1);
        [eapply b_eq; [apply (b_lit 128 5); [num..]|num]|eapply (b_sin _ _ _ (1 / 10 ^ 14) 8); [exact GS|exact B|lra..]|lra..]. }
    assert (T3 : apb (lit 719 6 * cosf (n_ofZ 2 * b))%num (0.000719 * cos (2 * r)) (1 / 10 ^ 15) (1 / 1000)).
    { eapply (b_mul _ _ _ _ (1 / 10 ^ 17) (31 / 10 ^ 15) (1 / 1000) 1);
        [eapply b_eq; [apply (b_lit 719 6); [num..]|num]|eapply (b_cos _ _ _ (3 / 10 ^ 14) 16); [exact GC|exact B2|lra..]|lra..]. }
    assert (T4 : apb (lit 77 6 * sinf (n_ofZ 2 * b))%num (0.000077 * sin (2 * r)) (1 / 10 ^ 16) (1 / 10000)).
    { eapply (b_mul _ _ _ _ (1 / 10 ^ 17) (31 / 10 ^ 15) (1 / 10000) 1);
        [eapply b_eq; [apply (b_lit 77 6); [num..]|num]|eapply (b_sin _ _ _ (3 / 10 ^ 14) 16); [exact GS|exact B2|lra..]|lra..]. }
    assert (T0 : apb (lit 100011 5) 1.00011 (2 / 10 ^ 16) (101 / 100)) by (eapply b_eq; [apply (b_lit 100011 5); [num..]|num]).
    assert (U1 : apb (lit 100011 5 + lit 34221 6 * cosf b)%num (1.00011 + 0.034221 * cos r) (14 / 10 ^ 16) (105 / 100))
      by (eapply (b_add _ _ _ _ (2 / 10 ^ 16) (1 / 10 ^ 15) (101 / 100) (4 / 100)); [exact T0|exact T1|lra..]).
    assert (U2 : apb (lit 100011 5 + lit 34221 6 * cosf b + lit 128 5 * sinf b)%num (1.00011 + 0.034221 * cos r + 0.00128 * sin r) (26 / 10 ^ 16) (106 / 100))
      by (eapply (b_add _ _ _ _ (14 / 10 ^ 16) (1 / 10 ^ 15) (105 / 100) (2 / 1000)); [exact U1|exact T2|lra..]).
    assert (U3 : apb (lit 100011 5 + lit 34221 6 * cosf b + lit 128 5 * sinf b + lit 719 6 * cosf (n_ofZ 2 * b))%num
                     (1.00011 + 0.034221 * cos r + 0.00128 * sin r + 0.000719 * cos (2 * r)) (38 / 10 ^ 16) (107 / 100))
      by (eapply (b_add _ _ _ _ (26 / 10 ^ 16) (1 / 10 ^ 15) (106 / 100) (1 / 1000)); [exact U2|exact T3|lra..]).
    eapply app_weaken; [apply (b_add _ _ _ _ (38 / 10 ^ 16) (1 / 10 ^ 16) (107 / 100) (1 / 10000) (41 / 10 ^ 16) 2 U3 T4); lra|lra].
  Qed.
End Sun.

(** ** flat terrain *)
Definition direct_R (doy h mi : Z) (lon lat tz cl : R) : R :=
  1367 * sun_ratio doy * ((0.6 + 0.2 * day_height (sun_height doy h mi lon lat tz)) * (1 - cl)) * day_height (sun_height doy h mi lon lat tz).
Definition diffuse_R (doy h mi : Z) (lon lat tz cl : R) : R :=
  1367 * sun_ratio doy * ((0.3 + 0.1 * day_height (sun_height doy h mi lon lat tz)) * cl) * day_height (sun_height doy h mi lon lat tz).
Lemma clip_val x : ffin x -> ffin (no_less_than_0 x) /\ fval (no_less_than_0 x) = Rmax 0 (fval x).
Proof.
  intro F. unfold no_less_than_0. change (x <? n0)%num with (x <? n0)%float.
  destruct (fltb_correct x n0 F ffin_zero) as [L|L]; rewrite fval_zero in L.
  - split; [exact ffin_zero|]. rewrite fval_zero, Rmax_left; lra.
  - split; [exact F|]. rewrite Rmax_right; lra.
Qed.
Lemma clip_nan x : PrimFloat.is_nan (no_less_than_0 x) = PrimFloat.is_nan x.
Proof.
  unfold no_less_than_0. change (x <? n0)%num with (x <? n0)%float. destruct (x <? n0)%float eqn:E; [|reflexivity].
  rewrite ltb_equiv in E. rewrite !is_nan_equiv. destruct (Prim2B x) as [s|s| |s m e H]; try discriminate; reflexivity.
Qed.
Lemma Rmax0_lip a b : Rabs (Rmax 0 a - Rmax 0 b) <= Rabs (a - b).
Proof. unfold Rmax, Rabs. destruct (Rle_dec 0 a), (Rle_dec 0 b); repeat destruct (Rcase_abs _); lra. Qed.
Lemma ffin_not_nan x : ffin x -> PrimFloat.is_nan x = false.
Proof. unfold ffin. rewrite is_nan_equiv. destruct (Prim2B x); try discriminate; reflexivity. Qed.
Lemma nan_mul x y : PrimFloat.is_nan x = true \/ PrimFloat.is_nan y = true -> PrimFloat.is_nan (x * y)%float = true.
Proof. rewrite !is_nan_equiv, mul_equiv. intros [H|H]; destruct (Prim2B x), (Prim2B y); try discriminate; reflexivity. Qed.
Lemma zero_mul x y : ffin x -> fval x = 0 -> ffin y -> ffin (x * y)%float /\ fval (x * y)%float = 0.
Proof.
  intros FX ZX FY. destruct (fmul_correct x y FX FY) as [E F]; rewrite ZX, Rmult_0_l, rnd_0 in *; [rewrite Rabs_R0; unfold big; apply bpow_gt_0|].
  split; assumption.
Qed.

Section Flat.
  Variables sinf cosf asinf acosf : float -> float.
  Hypothesis GC : good_cosine cosf.
  Hypothesis GS : good_sine sinf.
  Hypothesis E0 : exact_at_0 sinf cosf.
  Hypothesis BS : bounded_by_1 sinf.
  Hypothesis BC : bounded_by_1 cosf.
  Variables doy h mi : Z.
  Variables lon lat tz az cl : float.
  Hypothesis HD : (1 <= doy <= 366)%Z.
  Hypothesis HH : (0 <= h < 24)%Z.
  Hypothesis HM : (0 <= mi < 60)%Z.
  Hypothesis HLo : degrees lon.
  Hypothesis HLa : degrees lat.
  Hypothesis HZ : zone tz.
  Hypothesis HC : cloudiness cl.
  Notation H := (sun_height doy h mi (fval lon) (fval lat) (fval tz)).
  Notation c := (height_any np_pi sinf cosf doy h mi lon lat tz).
  Notation facing := (facing_any np_pi sinf cosf asinf acosf doy h mi lon lat tz az).
  Notation pot := (pot_any np_pi sinf cosf asinf acosf doy h mi lon lat tz 0%float az cl).

  Lemma height_near : ffin c /\ fval c = Rmax 0 (fval (raw_height sinf cosf doy h mi lon lat tz)) /\ apb c (day_height H) (2 / 10 ^ 13) 1.
  Proof.
    destruct (raw_height_near sinf cosf GC GS doy h mi lon lat tz HD HH HM HLo HLa HZ) as [F E].
    destruct (clip_val _ F) as [CF CV]. change c with (no_less_than_0 (raw_height sinf cosf doy h mi lon lat tz)).
    split; [exact CF|]. split; [exact CV|]. split; [split; [exact CF|]|].
    - rewrite CV. unfold day_height. eapply Rle_trans; [apply Rmax0_lip|exact E].
    - pose proof (day_height_bound doy h mi (fval lon) (fval lat) (fval tz)). rewrite Rabs_pos_eq; lra.
  Qed.
  (** the incidence: not a number, or exactly the height *)
  Notation cosi := (cosf 0%float * c + sinf 0%float * sinf (acosf c) * facing)%num.
  Lemma facing_cases : PrimFloat.is_nan facing = true \/ ffin facing.
  Proof. destruct (BC (asinf (cosf (decline_any np_pi cosf doy) * sinf (hour_angle_any np_pi h mi lon tz) / sinf (acosf c))%num - az)%num) as [N|[F _]]; [left; exact N|right; apply ffin_spec; exact F]. Qed.
  Lemma cosi_nan : PrimFloat.is_nan (sinf (acosf c)) = true \/ PrimFloat.is_nan facing = true -> PrimFloat.is_nan cosi = true.
  Proof. intros [N|N]; apply nan_add; right; apply nan_mul; [left; apply nan_mul; right|right]; exact N. Qed.
  Lemma at_0 : ffin (sinf 0%float) /\ fval (sinf 0%float) = 0 /\ ffin (cosf 0%float) /\ fval (cosf 0%float) = 1.
  Proof.
    assert (V0 : fval 0%float = 0) by (unfold fval; vm_compute; lra). assert (V1 : fval 1%float = 1) by (unfold fval; vm_compute; lra).
    assert (F0 : ffin 0%float) by (unfold ffin; vm_compute; reflexivity). assert (F1 : ffin 1%float) by (unfold ffin; vm_compute; reflexivity).
    assert (FI : PrimFloat.is_finite 0%float = true) by (vm_compute; reflexivity).
    destruct (GC 0%float FI) as (FC & _); [rewrite V0, Rabs_R0; lra|]. destruct (GS 0%float FI) as (FS & _); [rewrite V0, Rabs_R0; lra|].
    apply ffin_spec in FC, FS. destruct E0 as [ES EC].
    apply (eqb_true _ _ FS F0) in ES. apply (eqb_true _ _ FC F1) in EC. rewrite V0 in ES. rewrite V1 in EC. auto.
  Qed.
  Lemma cosi_val : PrimFloat.is_nan (sinf (acosf c)) = false -> PrimFloat.is_nan facing = false -> ffin cosi /\ fval cosi = fval c.
  Proof.
    intros N1 N2. destruct at_0 as (FS & VS & FC & VC). destruct height_near as (Fc & _).
    assert (Fz : ffin (sinf (acosf c))) by (destruct (BS (acosf c)) as [N|[F _]]; [congruence|apply ffin_spec; exact F]).
    assert (Ff : ffin facing) by (destruct facing_cases as [N|F]; [congruence|exact F]).
    destruct (zero_mul _ _ FS VS Fz) as [F1 V1]. destruct (zero_mul _ _ F1 V1 Ff) as [F2 V2].
    assert (M : ffin (cosf 0%float * c)%float /\ fval (cosf 0%float * c)%float = fval c).
    { destruct (fmul_correct _ _ FC Fc) as [E F]; rewrite VC, Rmult_1_l, rnd_fval in *; [apply fval_lt_big|]. split; assumption. }
    destruct M as [F3 V3].
    destruct (fadd_correct _ _ F3 F2) as [E F]; rewrite V3, V2, Rplus_0_r, rnd_fval in *; [apply fval_lt_big|]. split; assumption.
  Qed.

  Lemma sc_near : apb (n_ofZ 1367 * ratio_any np_pi sinf cosf doy)%num (1367 * sun_ratio doy) (8 / 10 ^ 12) 1416.
  Proof.
    pose proof (sun_ratio_bounds doy) as RB.
    assert (R : apb (ratio_any np_pi sinf cosf doy) (sun_ratio doy) (5 / 10 ^ 15) (10351 / 10000)) by (split; [apply ratio_near; assumption|rewrite Rabs_pos_eq; lra]).
    eapply (b_mul _ _ _ _ 0 (5 / 10 ^ 15) 1367 (10351 / 10000)); [apply (b_Z 1367); num|exact R|lra..].
  Qed.
  Lemma cloud_near : apb cl (fval cl) 0 1 /\ apb (n1 - cl)%num (1 - fval cl) (3 / 10 ^ 16) 1.
  Proof.
    destruct HC as [FC BC']. assert (A : apb cl (fval cl) 0 1) by (apply b_exact; [exact FC|rewrite Rabs_pos_eq; lra]). split; [exact A|].
    split; [|rewrite Rabs_pos_eq; lra]. apply (b_sub _ _ _ _ 0 0 1 1 _ 2 (b_Z 1 1 ltac:(lia) ltac:(num)) A); lra.
  Qed.
  Lemma t_direct_near : apb ((lit 6 1 + lit 2 1 * c) * (n1 - cl))%num ((0.6 + 0.2 * day_height H) * (1 - fval cl)) (5 / 10 ^ 14) 0.8.
  Proof.
    destruct height_near as (_ & _ & HN). destruct cloud_near as [_ CN].
    assert (A1 : apb (lit 2 1 * c)%num (0.2 * day_height H) (41 / 10 ^ 15) 0.2).
    { eapply (b_mul _ _ _ _ (1 / 10 ^ 16) (2 / 10 ^ 13) 0.2 1); [eapply b_eq; [apply (b_lit 2 1); [num..]|num]|exact HN|lra..]. }
    assert (A2 : apb (lit 6 1 + lit 2 1 * c)%num (0.6 + 0.2 * day_height H) (42 / 10 ^ 15) 0.8).
    { eapply (b_add _ _ _ _ (1 / 10 ^ 16) (41 / 10 ^ 15) 0.6 0.2); [eapply b_eq; [apply (b_lit 6 1); [num..]|num]|exact A1|lra..]. }
    eapply (b_mul _ _ _ _ (42 / 10 ^ 15) (3 / 10 ^ 16) 0.8 1); [exact A2|exact CN|lra..].
  Qed.
  Lemma t_diffuse_near : apb ((lit 3 1 + lit 1 1 * c) * cl)%num ((0.3 + 0.1 * day_height H) * fval cl) (3 / 10 ^ 14) 0.4.
  Proof.
    destruct height_near as (_ & _ & HN). destruct cloud_near as [CN _].
    assert (A1 : apb (lit 1 1 * c)%num (0.1 * day_height H) (21 / 10 ^ 15) 0.1).
    { eapply (b_mul _ _ _ _ (1 / 10 ^ 16) (2 / 10 ^ 13) 0.1 1); [eapply b_eq; [apply (b_lit 1 1); [num..]|num]|exact HN|lra..]. }
    assert (A2 : apb (lit 3 1 + lit 1 1 * c)%num (0.3 + 0.1 * day_height H) (22 / 10 ^ 15) 0.4).
    { eapply (b_add _ _ _ _ (1 / 10 ^ 16) (21 / 10 ^ 15) 0.3 0.1); [eapply b_eq; [apply (b_lit 3 1); [num..]|num]|exact A1|lra..]. }
    eapply (b_mul _ _ _ _ (22 / 10 ^ 15) 0 0.4 1); [exact A2|exact CN|lra..].
  Qed.
  Lemma direct_near : PrimFloat.is_nan (sinf (acosf c)) = false -> PrimFloat.is_nan facing = false ->
    apb (fst pot) (direct_R doy h mi (fval lon) (fval lat) (fval tz) (fval cl)) (4 / 10 ^ 10) 1133.
  Proof.
    intros N1 N2. destruct (cosi_val N1 N2) as [FI VI]. destruct height_near as (_ & _ & [[_ HE] HB]).
    assert (I : apb cosi (day_height H) (2 / 10 ^ 13) 1) by (split; [split; [exact FI|rewrite VI; exact HE]|exact HB]).
    assert (S : apb (n_ofZ 1367 * ratio_any np_pi sinf cosf doy * ((lit 6 1 + lit 2 1 * c) * (n1 - cl)))%num
                    (1367 * sun_ratio doy * ((0.6 + 0.2 * day_height H) * (1 - fval cl))) (8 / 10 ^ 11) 1133)
      by (eapply (b_mul _ _ _ _ (8 / 10 ^ 12) (5 / 10 ^ 14) 1416 0.8); [apply sc_near|apply t_direct_near|lra..]).
    assert (P : apb (n_ofZ 1367 * ratio_any np_pi sinf cosf doy * ((lit 6 1 + lit 2 1 * c) * (n1 - cl)) * cosi)%num
                    (direct_R doy h mi (fval lon) (fval lat) (fval tz) (fval cl)) (4 / 10 ^ 10) 1133)
      by (eapply (b_mul _ _ _ _ (8 / 10 ^ 11) (2 / 10 ^ 13) 1133 1); [exact S|exact I|lra..]).
    destruct P as [[PF PE] PB]. destruct (clip_val _ PF) as [CF CV]. split; [|exact PB]. split; [exact CF|].
    unfold pot_any. cbv zeta. cbn [fst]. rewrite CV.
    assert (D0 : 0 <= direct_R doy h mi (fval lon) (fval lat) (fval tz) (fval cl)).
    { unfold direct_R. pose proof (sun_ratio_bounds doy). pose proof (day_height_bound doy h mi (fval lon) (fval lat) (fval tz)). destruct HC. repeat apply Rmult_le_pos; lra. }
    rewrite <- (Rmax_right 0 _ D0). eapply Rle_trans; [apply Rmax0_lip|]. exact PE.
  Qed.
  Lemma diffuse_near : apb (snd pot) (diffuse_R doy h mi (fval lon) (fval lat) (fval tz) (fval cl)) (2 / 10 ^ 10) 567.
  Proof.
    destruct height_near as (_ & _ & HN).
    assert (S : apb (n_ofZ 1367 * ratio_any np_pi sinf cosf doy * ((lit 3 1 + lit 1 1 * c) * cl))%num
                    (1367 * sun_ratio doy * ((0.3 + 0.1 * day_height H) * fval cl)) (5 / 10 ^ 11) 567)
      by (eapply (b_mul _ _ _ _ (8 / 10 ^ 12) (3 / 10 ^ 14) 1416 0.4); [apply sc_near|apply t_diffuse_near|lra..]).
    eapply (b_mul _ _ _ _ (5 / 10 ^ 11) (2 / 10 ^ 13) 567 1); [exact S|exact HN|lra..].
  Qed.
  Lemma direct_nan : PrimFloat.is_nan (fst pot) = true <-> PrimFloat.is_nan (sinf (acosf c)) = true \/ PrimFloat.is_nan facing = true.
  Proof.
    split.
    - intro N. destruct (PrimFloat.is_nan (sinf (acosf c))) eqn:N1; [left; reflexivity|]. destruct (PrimFloat.is_nan facing) eqn:N2; [right; reflexivity|].
      destruct (direct_near N1 N2) as [[F _] _]. apply ffin_not_nan in F. congruence.
    - intro N. unfold pot_any. cbv zeta. cbn [fst]. rewrite clip_nan. apply nan_mul. right. apply cosi_nan. exact N.
  Qed.
  (** the sun below the horizon *)
  Lemma night_exact : H <= - (1 / 10 ^ 12) -> fval c = 0.
  Proof.
    intro N. destruct height_near as (_ & V & _). destruct (raw_height_near sinf cosf GC GS doy h mi lon lat tz HD HH HM HLo HLa HZ) as [_ E].
    rewrite V. apply Rmax_left. apply Flocq.Core.Raux.Rabs_le_inv in E. lra.
  Qed.
  Lemma night_pot : H <= - (1 / 10 ^ 12) -> (PrimFloat.is_nan (fst pot) = true \/ ffin (fst pot) /\ fval (fst pot) = 0) /\ ffin (snd pot) /\ fval (snd pot) = 0.
  Proof.
    intro N. pose proof (night_exact N) as V0. destruct height_near as (Fc & _ & _).
    assert (ZR : forall x y, ffin x -> ffin y -> fval y = 0 -> ffin (x * y)%float /\ fval (x * y)%float = 0).
    { intros x y FX FY ZY. destruct (fmul_correct x y FX FY) as [E F]; rewrite ZY, Rmult_0_r, rnd_0 in *; [rewrite Rabs_R0; unfold big; apply bpow_gt_0|]. split; assumption. }
    split.
    - destruct (PrimFloat.is_nan (fst pot)) eqn:NN; [left; reflexivity|right].
      assert (N1 : PrimFloat.is_nan (sinf (acosf c)) = false) by (destruct (PrimFloat.is_nan (sinf (acosf c))) eqn:Q; [|reflexivity]; rewrite (proj2 direct_nan (or_introl Q)) in NN; discriminate).
      assert (N2 : PrimFloat.is_nan facing = false) by (destruct (PrimFloat.is_nan facing) eqn:Q; [|reflexivity]; rewrite (proj2 direct_nan (or_intror Q)) in NN; discriminate).
      destruct (cosi_val N1 N2) as [FI VI]. rewrite V0 in VI.
      assert (S : apb (n_ofZ 1367 * ratio_any np_pi sinf cosf doy * ((lit 6 1 + lit 2 1 * c) * (n1 - cl)))%num
                    (1367 * sun_ratio doy * ((0.6 + 0.2 * day_height H) * (1 - fval cl))) (8 / 10 ^ 11) 1133)
        by (eapply (b_mul _ _ _ _ (8 / 10 ^ 12) (5 / 10 ^ 14) 1416 0.8); [apply sc_near|apply t_direct_near|lra..]).
      destruct S as [[SF _] _]. destruct (ZR _ _ SF FI VI) as [PF PV]. destruct (clip_val _ PF) as [CF CV]. split; [exact CF|].
      unfold pot_any. cbv zeta. cbn [fst]. etransitivity; [exact CV|]. rewrite PV. apply Rmax_left. lra.
    - assert (S : apb (n_ofZ 1367 * ratio_any np_pi sinf cosf doy * ((lit 3 1 + lit 1 1 * c) * cl))%num
                    (1367 * sun_ratio doy * ((0.3 + 0.1 * day_height H) * fval cl)) (5 / 10 ^ 11) 567)
        by (eapply (b_mul _ _ _ _ (8 / 10 ^ 12) (3 / 10 ^ 14) 1416 0.4); [apply sc_near|apply t_diffuse_near|lra..]).
      destruct S as [[SF _] _]. exact (ZR _ _ SF Fc V0).
  Qed.
End Flat.

(** ** any terrain: not a number, or in a range *)
Definition nr (x : float) (l h : R) : Prop := PrimFloat.is_nan x = true \/ (ffin x /\ l <= fval x <= h).
Lemma mid_small a l h : fval l <= a -> a <= fval h -> Rabs (rnd a) < big.
Proof.
  intros L U. pose proof (rnd_ge_fval a l L) as A. pose proof (rnd_le_fval a h U) as B. pose proof (fval_lt_big l) as P. pose proof (fval_lt_big h) as Q.
  apply Rabs_def2 in P. apply Rabs_def2 in Q. apply Rabs_def1; lra.
Qed.
Lemma nr_add fl fh x y l1 h1 l2 h2 l h : fval fl = l -> fval fh = h -> nr x l1 h1 -> nr y l2 h2 -> l <= l1 + l2 -> h1 + h2 <= h -> nr (x + y)%num l h.
Proof.
  intros <- <- [N|[FX BX]] HY L U; [left; apply nan_add; left; exact N|]. destruct HY as [N|[FY BY]]; [left; apply nan_add; right; exact N|right].
  destruct (fadd_correct x y FX FY) as [E F]; [apply (mid_small _ fl fh); lra|]. split; [exact F|]. change (x + y)%num with (x + y)%float. rewrite E.
  split; [apply rnd_ge_fval; lra|apply rnd_le_fval; lra].
Qed.
Lemma nr_mul fl fh x y l1 h1 l2 h2 l h : fval fl = l -> fval fh = h -> nr x l1 h1 -> nr y l2 h2 ->
  (forall a b, l1 <= a <= h1 -> l2 <= b <= h2 -> l <= a * b <= h) -> nr (x * y)%num l h.
Proof.
  intros <- <- [N|[FX BX]] HY LU; [left; apply nan_mul; left; exact N|]. destruct HY as [N|[FY BY]]; [left; apply nan_mul; right; exact N|right].
  specialize (LU _ _ BX BY).
  destruct (fmul_correct x y FX FY) as [E F]; [apply (mid_small _ fl fh); lra|]. split; [exact F|]. change (x * y)%num with (x * y)%float. rewrite E.
  split; [apply rnd_ge_fval; lra|apply rnd_le_fval; lra].
Qed.
Lemma nr_clip x l h : nr x l h -> 0 <= h -> nr (no_less_than_0 x) 0 h.
Proof.
  intros [N|[F B]] P; [left; rewrite clip_nan; exact N|right]. destruct (clip_val x F) as [CF CV]. split; [exact CF|]. rewrite CV.
  split; [apply Rmax_l|apply Rmax_lub; lra].
Qed.
Lemma nr_bounded f x : bounded_by_1 f -> nr (f x) (-1) 1.
Proof. intro B. destruct (B x) as [N|[F H]]; [left; exact N|right]. split; [apply ffin_spec; exact F|]. apply Flocq.Core.Raux.Rabs_le_inv in H. lra. Qed.
Lemma nr_weaken x l h l' h' : nr x l h -> l' <= l -> h <= h' -> nr x l' h'.
Proof. intros [N|[F B]] L U; [left; exact N|right; split; [exact F|lra]]. Qed.
Ltac fv := first [vm_compute; reflexivity | unfold fval; vm_compute; lra].
Section Terrain.
  Variables sinf cosf asinf acosf : float -> float.
  Hypothesis BS : bounded_by_1 sinf.
  Hypothesis BC : bounded_by_1 cosf.
  Lemma fv_m1 : fval (-1)%float = -1. Proof. fv. Qed.
  Lemma fv_1 : fval 1%float = 1. Proof. fv. Qed.
  Lemma fv_0 : fval 0%float = 0. Proof. fv. Qed.
  Lemma fv_m2 : fval (-2)%float = -2. Proof. fv. Qed.
  Lemma fv_2 : fval 2%float = 2. Proof. fv. Qed.
  Lemma unit_mul x y : nr x (-1) 1 -> nr y (-1) 1 -> nr (x * y)%num (-1) 1.
  Proof. intros HX HY. apply (nr_mul _ _ x y (-1) 1 (-1) 1 (-1) 1 fv_m1 fv_1 HX HY). intros a b Ha Hb. nra. Qed.
  Lemma height_range doy h mi lon lat tz : nr (height_any np_pi sinf cosf doy h mi lon lat tz) 0 2.
  Proof.
    unfold height_any. cbv zeta. apply (nr_clip _ (-2)); [|lra].
    apply (nr_add _ _ _ _ (-1) 1 (-1) 1 _ _ fv_m2 fv_2); [apply unit_mul; apply nr_bounded; assumption|apply unit_mul; [apply unit_mul|]; apply nr_bounded; assumption|lra|lra].
  Qed.
  Lemma nr_lit m k l h : ffin (lit m k : float) -> l <= fval (lit m k : float) <= h -> nr (lit m k) l h.
  Proof. intros F B. right. auto. Qed.
  Ltac lt := apply nr_lit; [unfold ffin; vm_compute; reflexivity|unfold fval; vm_compute; lra].
  Lemma small_term m k x b (fb fmb : float) : fval fb = b -> fval fmb = - b -> nr (lit m k) (- b) b -> nr x (-1) 1 -> nr (lit m k * x)%num (- b) b.
  Proof. intros V1 V2 L X. apply (nr_mul fmb fb _ _ (- b) b (-1) 1 _ _ V2 V1 L X). intros p q Hp Hq. split; nra. Qed.
  Lemma fv_t1 : fval 0.0625%float = 0.0625. Proof. fv. Qed.
  Lemma fv_t2 : fval (-0.0625)%float = - (0.0625). Proof. fv. Qed.
  Lemma fv_t3 : fval 0.00390625%float = 0.00390625. Proof. fv. Qed.
  Lemma fv_t4 : fval (-0.00390625)%float = - (0.00390625). Proof. fv. Qed.
  Lemma ratio_range doy : nr (ratio_any np_pi sinf cosf doy) 0.75 1.25.
  Proof.
    unfold ratio_any. cbv zeta. set (b := (n_ofZ 2 * np_pi * (n_ofZ doy / lit 36525 2))%num). clearbody b.
    assert (T1 : nr (lit 34221 6 * cosf b)%num (- (0.0625)) 0.0625) by (apply (small_term _ _ _ _ _ _ fv_t1 fv_t2); [lt|apply nr_bounded; assumption]).
    assert (T2 : nr (lit 128 5 * sinf b)%num (- (0.00390625)) 0.00390625) by (apply (small_term _ _ _ _ _ _ fv_t3 fv_t4); [lt|apply nr_bounded; assumption]).
    assert (T3 : nr (lit 719 6 * cosf (n_ofZ 2 * b))%num (- (0.00390625)) 0.00390625) by (apply (small_term _ _ _ _ _ _ fv_t3 fv_t4); [lt|apply nr_bounded; assumption]).
    assert (T4 : nr (lit 77 6 * sinf (n_ofZ 2 * b))%num (- (0.00390625)) 0.00390625) by (apply (small_term _ _ _ _ _ _ fv_t3 fv_t4); [lt|apply nr_bounded; assumption]).
    assert (T0 : nr (lit 100011 5) 1 1.001) by lt.
    assert (W1 : fval 0.875%float = 0.875) by fv. assert (W2 : fval 1.125%float = 1.125) by fv.
    assert (W3 : fval 0.8125%float = 0.8125) by fv. assert (W4 : fval 1.1875%float = 1.1875) by fv.
    assert (W5 : fval 0.78125%float = 0.78125) by fv. assert (W6 : fval 1.21875%float = 1.21875) by fv.
    assert (W7 : fval 0.75%float = 0.75) by fv. assert (W8 : fval 1.25%float = 1.25) by fv.
    pose proof (nr_add _ _ _ _ _ _ _ _ _ _ W1 W2 T0 T1 ltac:(lra) ltac:(lra)) as U1.
    pose proof (nr_add _ _ _ _ _ _ _ _ _ _ W3 W4 U1 T2 ltac:(lra) ltac:(lra)) as U2.
    pose proof (nr_add _ _ _ _ _ _ _ _ _ _ W5 W6 U2 T3 ltac:(lra) ltac:(lra)) as U3.
    exact (nr_add _ _ _ _ _ _ _ _ _ _ W7 W8 U3 T4 ltac:(lra) ltac:(lra)).
  Qed.
  Lemma terrain_range doy h mi lon lat tz slope az cl : cloudiness cl ->
    nr (fst (pot_any np_pi sinf cosf asinf acosf doy h mi lon lat tz slope az cl)) 0 6408.75 /\
    nr (snd (pot_any np_pi sinf cosf asinf acosf doy h mi lon lat tz slope az cl)) 0 2137.
  Proof.
    intros [FC CB]. unfold pot_any. cbv zeta. cbn [fst snd].
    pose proof (height_range doy h mi lon lat tz) as HR. set (c := height_any np_pi sinf cosf doy h mi lon lat tz) in *. clearbody c.
    pose proof (ratio_range doy) as RR. set (r := ratio_any np_pi sinf cosf doy) in *. clearbody r.
    set (f := facing_any np_pi sinf cosf asinf acosf doy h mi lon lat tz az).
    assert (Ff : nr f (-1) 1) by (unfold f, facing_any; cbv zeta; apply nr_bounded; exact BC). clearbody f.
    assert (V0 := fv_0). assert (Vh : fval 0.5%float = 0.5) by fv. assert (Vq : fval 1.25%float = 1.25) by fv. assert (Vd : fval 0.25%float = 0.25) by fv. assert (Vf : fval 0.625%float = 0.625) by fv.
    assert (V1709 : fval 1709%float = 1709) by fv. assert (V2136 : fval 2136.25%float = 2136.25) by fv. assert (Vm3 : fval (-3)%float = -3) by fv. assert (V3 : fval 3%float = 3) by fv.
    assert (V1068 : fval 1068.125%float = 1068.125) by fv.
    assert (CN : nr cl 0 1) by (right; split; [apply ffin_spec; exact FC|exact CB]).
    assert (C1 : nr (n1 - cl)%num 0 1).
    { right. assert (F1 : ffin n1) by (unfold ffin; vm_compute; reflexivity). assert (W1 : fval n1 = 1) by fv.
      destruct (fsub_correct n1 cl F1 (proj2 (ffin_spec _) FC)) as [E F]; [apply (mid_small _ 0%float 1%float); rewrite ?fv_0, ?fv_1, W1; lra|].
      split; [exact F|]. change (n1 - cl)%num with (n1 - cl)%float. rewrite E. rewrite W1. split; [apply Rle_trans with (fval 0%float); [rewrite fv_0; lra|apply rnd_ge_fval; rewrite fv_0; lra]|].
      apply Rle_trans with (fval 1%float); [apply rnd_le_fval; rewrite fv_1; lra|rewrite fv_1; lra]. }
    assert (A2 : nr (lit 2 1 * c)%num 0 0.5).
    { refine (nr_mul _ _ _ _ 0.2 0.21 _ _ _ _ V0 Vh _ HR _); [lt|intros p q Hp Hq; nra]. }
    assert (A6 : nr (lit 6 1 + lit 2 1 * c)%num 0 1.25).
    { refine (nr_add _ _ _ _ 0.5 0.61 _ _ _ _ V0 Vq _ A2 _ _); [lt|lra|lra]. }
    assert (T1 : nr ((lit 6 1 + lit 2 1 * c) * (n1 - cl))%num 0 1.25).
    { refine (nr_mul _ _ _ _ _ _ _ _ _ _ V0 Vq A6 C1 _). intros p q Hp Hq; nra. }
    assert (A1 : nr (lit 1 1 * c)%num 0 0.25).
    { refine (nr_mul _ _ _ _ 0.1 0.11 _ _ _ _ V0 Vd _ HR _); [lt|intros p q Hp Hq; nra]. }
    assert (A3 : nr (lit 3 1 + lit 1 1 * c)%num 0 0.625).
    { refine (nr_add _ _ _ _ 0.25 0.31 _ _ _ _ V0 Vf _ A1 _ _); [lt|lra|lra]. }
    assert (T2 : nr ((lit 3 1 + lit 1 1 * c) * cl)%num 0 0.625).
    { refine (nr_mul _ _ _ _ _ _ _ _ _ _ V0 Vf A3 CN _). intros p q Hp Hq; nra. }
    assert (S0 : nr (n_ofZ 1367) 1367 1367) by (destruct (ofZ_val 1367 ltac:(lia)) as [F V]; right; split; [exact F|rewrite V; lra]).
    assert (S : nr (n_ofZ 1367 * r)%num 0 1709).
    { refine (nr_mul _ _ _ _ _ _ _ _ _ _ V0 V1709 S0 RR _). intros p q Hp Hq; nra. }
    assert (D1 : nr (n_ofZ 1367 * r * ((lit 6 1 + lit 2 1 * c) * (n1 - cl)))%num 0 2136.25).
    { refine (nr_mul _ _ _ _ _ _ _ _ _ _ V0 V2136 S T1 _). intros p q Hp Hq; nra. }
    assert (D2 : nr (n_ofZ 1367 * r * ((lit 3 1 + lit 1 1 * c) * cl))%num 0 1068.125).
    { refine (nr_mul _ _ _ _ _ _ _ _ _ _ V0 V1068 S T2 _). intros p q Hp Hq; nra. }
    assert (I1 : nr (cosf slope * c)%num (-2) 2).
    { refine (nr_mul _ _ _ _ _ _ _ _ _ _ fv_m2 fv_2 (nr_bounded _ slope BC) HR _). intros p q Hp Hq; nra. }
    assert (I2 : nr (sinf slope * sinf (acosf c) * f)%num (-1) 1) by (apply unit_mul; [apply unit_mul; apply nr_bounded; exact BS|exact Ff]).
    assert (I : nr (cosf slope * c + sinf slope * sinf (acosf c) * f)%num (-3) 3) by (refine (nr_add _ _ _ _ _ _ _ _ _ _ Vm3 V3 I1 I2 _ _); lra).
    split.
    - assert (Va : fval (-6409)%float = -6409) by fv. assert (Vb : fval 6408.75%float = 6408.75) by fv.
      apply nr_clip with (l := -6409); [|lra]. refine (nr_mul _ _ _ _ _ _ _ _ _ _ Va Vb D1 I _). intros p q Hp Hq; nra.
    - assert (Vb : fval 2137%float = 2137) by fv. refine (nr_mul _ _ _ _ _ _ _ _ _ _ V0 Vb D2 HR _). intros p q Hp Hq; nra.
  Qed.
End Terrain.
