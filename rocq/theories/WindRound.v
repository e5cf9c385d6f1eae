(** Error bounds of the cosine wind in binary64. *)
From Coq Require Import String ZArith List Bool Lia Reals Lra Floats.
From Flocq Require Import Core.
From Verif Require Import Py Num Cal Series UtilModel UtilModel2 Frame SpecBase SpecUtil TimeProofs IndexProofs DaysProofs EqualProofs
  TempProofs F64 CascadeFloat CascadeRound FiveRound SpecCourseRound CourseRound SpecSineRound SineModel ErrCalc SineRound.
Import ListNotations.
Open Scope R_scope.

Definition cap4 : R := bpow radix2 400.
Lemma modest_spec x : modest x -> ffin x /\ Rabs (fval x) <= cap4.
Proof.
  unfold modest. rewrite andb_true_iff. intros [A B].
  assert (F : ffin x) by (apply (between_finite (-0x1p400)%float x 0x1p400%float); (reflexivity || assumption)).
  assert (E : fval 0x1p400%float = cap4) by (unfold fval, cap4; vm_compute; lra).
  assert (E' : fval (-0x1p400)%float = - cap4) by (unfold fval, cap4; vm_compute; lra).
  destruct (fleb_correct (-0x1p400)%float x eq_refl F) as [A'|]; [|discriminate].
  destruct (fleb_correct x 0x1p400%float F eq_refl) as [B'|]; [|discriminate].
  split; [exact F|]. apply Rabs_le. lra.
Qed.
Lemma cap4_square : 1 <= cap4 /\ 8 * (cap4 * cap4) <= cap.
Proof.
  split; [unfold cap4; change 1 with (bpow radix2 0); apply bpow_le; lia|].
  change 8 with (bpow radix2 3). unfold cap4, cap. rewrite <- !bpow_plus. apply bpow_le. lia.
Qed.

(** the angle *)
Lemma app_wind_angle h s : (h < 24)%nat -> ffin s -> Rabs (fval s) <= 100 ->
  app (np_pi * (n_ofZ (Z.of_nat h) - s) / n_ofZ 12)%float (wind_angle h (fval s)) (2 / 10 ^ 14) /\ Rabs (wind_angle h (fval s)) <= 42.
Proof.
  intros Hh Fs Bs. pose proof cap_1 as C. pose proof eta_tiny as E. pose proof PI_bounds as P.
  destruct (ofZ_val 12) as [_ V]; [lia|].
  assert (HB : Rabs (IZR (Z.of_nat h)) <= 23) by (apply (abs_IZR_le _ 23); lia).
  assert (DB : Rabs (IZR (Z.of_nat h) - fval s) <= 123) by (apply Rabs_le_inv in HB, Bs; apply Rabs_le; lra).
  assert (A1 : app (n_ofZ (Z.of_nat h) - s)%float (IZR (Z.of_nat h) - fval s) (123 * u64)).
  { eapply app_weaken; [eapply (app_sub _ _ _ _ _ _ 23 100); [apply app_ofZ; lia|apply app_exact, Fs|exact HB|exact Bs|lra]|lra]. }
  assert (A2 : app (np_pi * (n_ofZ (Z.of_nat h) - s))%float (PI * (IZR (Z.of_nat h) - fval s)) (15 / 10 ^ 14)).
  { eapply app_weaken; [eapply (app_mul _ _ _ _ _ _ 4 123); [exact app_pi|exact A1|rewrite Rabs_pos_eq; lra|exact DB|unfold u64; lra]|unfold u64; lra]. }
  assert (PB : Rabs (PI * (IZR (Z.of_nat h) - fval s)) <= 492).
  { rewrite Rabs_mult, (Rabs_pos_eq PI) by lra. pose proof (Rabs_pos (IZR (Z.of_nat h) - fval s)). nra. }
  assert (EA : PI * (IZR (Z.of_nat h) - fval s) / 12 = wind_angle h (fval s)) by (unfold wind_angle; rewrite INR_IZR_INZ; field).
  split.
  - eapply app_weaken; [eapply app_eq; [eapply (app_div _ _ _ _ 492 12); [exact A2|exact PB|lra|rewrite V, Rabs_pos_eq; lra|lra]|rewrite V; exact EA]|unfold u64; lra].
  - rewrite <- EA. unfold Rdiv. rewrite Rabs_mult, (Rabs_pos_eq (/ 12)) by lra. lra.
Qed.

Lemma opp_val x : ffin x -> ffin (- x)%float /\ fval (- x)%float = - fval x.
Proof. intro F. exact (of_uint63_opp x (fval x) (conj F eq_refl)). Qed.

Section Wind.
  Variable cosf : float -> float.
  Hypothesis G : good_cosine cosf.
  Variables w a b s : float.
  Hypothesis Mw : modest w.
  Hypothesis Ma : modest a.
  Hypothesis Mb : modest b.
  Hypothesis Fs : ffin s.
  Hypothesis Bs : Rabs (fval s) <= 100.
  Let K := (Rabs (fval a) + Rabs (fval b)) * Rabs (fval w).

  Lemma wind_hour h : (h < 24)%nat ->
    nearly K (cosine_wind cosf np_pi w (n_ofZ (Z.of_nat h)) a b s)
      (fval a * fval w * cos (wind_angle h (fval s)) + fval b * fval w).
  Proof.
    intro Hh. destruct (app_wind_angle h s Hh Fs Bs) as [AA AB].
    destruct (app_cos cosf _ _ _ G AA) as [AC _]; [lra|lra|].
    destruct (modest_spec w Mw) as [Fw Bw], (modest_spec a Ma) as [Fa Ba], (modest_spec b Mb) as [Fb Bb].
    destruct cap4_square as [C4 C8]. pose proof cap_1 as C. pose proof eta_tiny as E. pose proof eta64_small as ES.
    assert (P0 : 0 <= Rabs (fval w)) by apply Rabs_pos. assert (Q0 : 0 <= Rabs (fval a)) by apply Rabs_pos. assert (R0 : 0 <= Rabs (fval b)) by apply Rabs_pos.
    assert (KA : Rabs (fval a * fval w) <= Rabs (fval a) * Rabs (fval w)) by (rewrite Rabs_mult; lra).
    assert (KB : Rabs (fval b * fval w) <= Rabs (fval b) * Rabs (fval w)) by (rewrite Rabs_mult; lra).
    set (x := Rabs (fval a) * Rabs (fval w)) in *. set (y := Rabs (fval b) * Rabs (fval w)) in *.
    assert (X : 0 <= x <= cap4 * cap4) by (split; [apply Rmult_le_pos; assumption|apply Rmult_le_compat; assumption]).
    assert (Y : 0 <= y <= cap4 * cap4) by (split; [apply Rmult_le_pos; assumption|apply Rmult_le_compat; assumption]).
    assert (KE : K = x + y) by (unfold K, x, y; ring).
    assert (CB : Rabs (cos (wind_angle h (fval s))) <= 1) by (apply Rabs_le, COS_bound).
    assert (A1 : app (a * w)%float (fval a * fval w) (u64 * x + eta64)).
    { eapply app_weaken; [eapply (app_mul _ _ _ _ _ _ (Rabs (fval a)) (Rabs (fval w))); [apply app_exact, Fa|apply app_exact, Fw|lra|lra|rewrite !Rplus_0_r; fold x; lra]|].
      rewrite !Rplus_0_r. fold x. lra. }
    assert (A2 : app (b * w)%float (fval b * fval w) (u64 * y + eta64)).
    { eapply app_weaken; [eapply (app_mul _ _ _ _ _ _ (Rabs (fval b)) (Rabs (fval w))); [apply app_exact, Fb|apply app_exact, Fw|lra|lra|rewrite !Rplus_0_r; fold y; lra]|].
      rewrite !Rplus_0_r. fold y. lra. }
    assert (A3 : app (a * w * cosf (np_pi * (n_ofZ (Z.of_nat h) - s) / n_ofZ 12))%float (fval a * fval w * cos (wind_angle h (fval s))) (3 / 10 ^ 14 * x + 3 * eta64)).
    { eapply app_weaken; [eapply (app_mul _ _ _ _ _ _ x 1); [exact A1|exact AC|exact KA|exact CB|unfold u64; lra]|unfold u64; lra]. }
    assert (K3 : Rabs (fval a * fval w * cos (wind_angle h (fval s))) <= x).
    { rewrite Rabs_mult. pose proof (Rabs_pos (fval a * fval w)). pose proof (Rabs_pos (cos (wind_angle h (fval s)))). nra. }
    pose proof (app_add _ _ _ _ _ _ x y A3 A2 K3 KB ltac:(unfold u64; lra)) as [F H].
    split; [apply ffin_spec; exact F|]. unfold cosine_wind. cbn [n_add n_mul n_div n_sub Num_f64]. eapply Rle_trans; [exact H|]. rewrite KE. unfold u64 in *. lra.
  Qed.

  (** sign and upper bound, exactly *)
  Lemma wind_sign h : (h < 24)%nat -> 0 <= fval w -> Rabs (fval a) <= fval b ->
    ffin (b * w + b * w)%float /\
    0 <= fval (cosine_wind cosf np_pi w (n_ofZ (Z.of_nat h)) a b s) <= fval (b * w + b * w)%float.
  Proof.
    intros Hh W0 AB. destruct (app_wind_angle h s Hh Fs Bs) as [AA AB'].
    destruct (app_cos cosf _ _ _ G AA) as [[Fc _] C1]; [lra|lra|].
    unfold cosine_wind. cbn [n_add n_mul n_div n_sub Num_f64]. set (c := cosf (np_pi * (n_ofZ (Z.of_nat h) - s) / n_ofZ 12)%float) in *.
    destruct (modest_spec w Mw) as [Fw Bw], (modest_spec a Ma) as [Fa Ba], (modest_spec b Mb) as [Fb Bb].
    destruct cap4_square as [C4 C8]. pose proof cap_1 as C. pose proof rnd_in_range as RR. pose proof eta_tiny as E.
    assert (P0 : 0 <= Rabs (fval w)) by apply Rabs_pos. assert (Q0 : 0 <= Rabs (fval a)) by apply Rabs_pos. assert (R0 : 0 <= Rabs (fval b)) by apply Rabs_pos.
    assert (X : Rabs (fval a * fval w) <= cap4 * cap4) by (rewrite Rabs_mult; apply Rmult_le_compat; assumption).
    assert (Y : Rabs (fval b * fval w) <= cap4 * cap4) by (rewrite Rabs_mult; apply Rmult_le_compat; assumption).
    destruct (fmul_correct a w Fa Fw) as [Ea Fp]; [apply RR; lra|]. destruct (fmul_correct b w Fb Fw) as [Eb Fq]; [apply RR; lra|].
    set (p := (a * w)%float) in *. set (q := (b * w)%float) in *.
    apply Rabs_le_inv in AB. destruct (opp_val q Fq) as [_ VQ].
    assert (PQ : - fval q <= fval p <= fval q).
    { rewrite Ea, Eb. split.
      - rewrite <- round_NE_opp. apply rnd_le. replace (- (fval b * fval w)) with (- fval b * fval w) by ring. apply Rmult_le_compat_r; lra.
      - apply rnd_le. apply Rmult_le_compat_r; lra. }
    assert (QB : 0 <= fval q <= cap).
    { split; [lra|]. rewrite Eb. pose proof (rnd_err (fval b * fval w)) as R. assert (u64 * Rabs (fval b * fval w) <= 1 * (cap4 * cap4)) by (apply Rmult_le_compat; unfold u64; try apply Rabs_pos; lra).
      apply Rabs_le_inv in R, Y. lra. }
    apply Rabs_le_inv in C1.
    assert (PC : - fval q <= fval p * fval c <= fval q) by (split; nra).
    destruct (fmul_correct p c Fp Fc) as [Ec Fpc]; [apply RR, Rabs_le; lra|].
    set (pc := (p * c)%float) in *.
    assert (PCQ : - fval q <= fval pc <= fval q).
    { rewrite Ec. split; [|apply rnd_le_fval; lra]. rewrite <- VQ. apply rnd_ge_fval. rewrite VQ. lra. }
    destruct (fadd_correct pc q Fpc Fq) as [Ew Fv]; [apply RR, Rabs_le; lra|].
    destruct (fadd_correct q q Fq Fq) as [Eq Fqq]; [apply RR, Rabs_le; lra|].
    split; [exact Fqq|]. rewrite Ew, Eq. split; [apply rnd_nonneg; lra|apply rnd_le; lra].
  Qed.
End Wind.

(** ** the rows of the array *)
Open Scope Z_scope.
Lemma chunk_hours {A} (g : Z -> A) d0 n i : (i < n)%nat ->
  chunk 24 i (map g (hours_index d0 n)) = map (fun h => g (stamp (d0 + Z.of_nat i) h)) (seq 0 24).
Proof.
  intro Hi. assert (L : length (map g (hours_index d0 n)) = (24 * n)%nat) by (rewrite map_length; apply grid_length).
  assert (LC : length (chunk 24 i (map g (hours_index d0 n))) = 24%nat) by (unfold chunk; rewrite firstn_length, skipn_length, L; lia).
  apply nth_ext with (d := g 0) (d' := g 0).
  - rewrite LC, map_length, seq_length. reflexivity.
  - rewrite LC. intros k Hk. rewrite nth_chunk by exact Hk. rewrite nth_map_seq by exact Hk. rewrite map_nth. f_equal.
    unfold hours_index. rewrite grid_nth by lia. unfold stamp, us_day, us_hour. lia.
Qed.
Section Shape.
  Context {T : Type} {N : Num T}.
  Variable cosf : T -> T.
  Variable pi : T.
  Hypothesis NN : n_isnan (n_nan : T) = true.
  Lemma wind_cosine_days e d0 (w : list T) a b s : w <> [] ->
    exists l, wind_cosine cosf pi e (daily d0 w) a b s = Ok l /\ (length l = 24 * length w)%nat /\
      forall i v, nth_error w i = Some v -> n_isnan v = false ->
        chunk 24 i l = map (fun h => cosine_wind cosf pi v (n_ofZ (Z.of_nat h)) a b s) (seq 0 24).
  Proof.
    intro NE. destruct (distribute_own_day NN e d0 w NE) as (out & E & I & D).
    set (g := fun t => nth (Z.to_nat (hour_of t)) (values_on (date_of t) out) n_nan).
    assert (EO : out = map (fun t => (t, g t)) (hours_index d0 (length w))).
    { apply (series_ext d0 (length w)); [exact I|rewrite map_map; apply map_id|]. intros i Hi.
      rewrite (values_on_map_hours g) by exact Hi. destruct (D i (nth i w n_nan) (nth_error_nth' w i n_nan Hi)) as [L _].
      apply nth_ext with (d := n_nan) (d' := n_nan); [rewrite L, map_length, seq_length; reflexivity|].
      rewrite L. intros h Hh. rewrite nth_map_seq by exact Hh. cbn [Nat.add]. unfold g. rewrite stamp_date, stamp_hour by exact Hh. rewrite Nat2Z.id. reflexivity. }
    unfold wind_cosine. rewrite E. cbn [bind]. eexists. split; [reflexivity|]. split.
    - rewrite map_length, EO, map_length. apply grid_length.
    - intros i v Hv Nv. assert (Hi : (i < length w)%nat) by (apply nth_error_Some; congruence).
      destruct (D i v Hv) as [_ V]. rewrite Nv in V. rewrite EO, map_map. cbn [fst snd].
      rewrite (chunk_hours (fun t => cosine_wind cosf pi (g t) (n_ofZ (hour_of t)) a b s)) by exact Hi.
      apply map_ext_in. intros h Hh. apply in_seq in Hh. unfold g. rewrite stamp_date, stamp_hour by lia. rewrite Nat2Z.id, V.
      rewrite (nth_indep _ n_nan v) by (rewrite repeat_length; lia). rewrite nth_repeat. reflexivity.
  Qed.
End Shape.
