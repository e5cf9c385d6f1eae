(** Linear interpolation in binary64. *)
From Coq Require Import String ZArith List Bool Lia Reals Lra Floats.
From Flocq Require Import Core BinarySingleNaN IEEE754.PrimFloat.
From Verif Require Import Py Num Cal Series UtilModel UtilModel2 InterpModel SpecBase SpecUtil SpecInterp TimeProofs IndexProofs EqualProofs DaysProofs InterpProofs
  F64 CascadeFloat CascadeRound ErrCalc SpecInterpRound.
Import ListNotations.
Open Scope R_scope.

(** ** readings *)
Lemma fval_abs x : fval (PrimFloat.abs x) = Rabs (fval x).
Proof. unfold fval. rewrite abs_equiv. apply B2R_Babs. Qed.
Lemma ffin_abs x : ffin (PrimFloat.abs x) <-> ffin x.
Proof. unfold ffin. rewrite abs_equiv, is_finite_Babs. reflexivity. Qed.
Lemma abs_below x c : ffin c -> (PrimFloat.abs x <=? c)%float = true -> ffin x.
Proof.
  intros Fc H. apply ffin_abs. revert H. unfold ffin in *. rewrite leb_equiv. unfold Bleb, SFleb. rewrite abs_equiv.
  destruct (Prim2B x) as [s|s| |s m e E]; destruct (Prim2B c) as [s'|s'| |s' m' e' E']; cbn; try reflexivity; try discriminate; destruct s'; discriminate.
Qed.
Definition low : R := bpow radix2 (-800).
Lemma reading_spec x : reading x -> ffin x /\ Rabs (fval x) <= cap /\ (fval x = 0 \/ low <= Rabs (fval x)).
Proof.
  intro H. apply andb_true_iff in H as [H1 H2].
  assert (E : fval 0x1p900%float = cap) by (unfold fval, cap; vm_compute; lra).
  assert (E' : fval 0x1p-800%float = low) by (unfold fval, low; vm_compute; lra).
  assert (Fx : ffin x) by (apply (abs_below x 0x1p900%float); [reflexivity|exact H2]). assert (Fa := proj2 (ffin_abs x) Fx). split; [exact Fx|].
  destruct (fleb_correct (PrimFloat.abs x) 0x1p900%float Fa eq_refl) as [K|]; [|discriminate]. rewrite fval_abs, E in K. split; [exact K|].
  apply orb_true_iff in H1 as [H1|H1].
  - left. destruct (feqb_correct (PrimFloat.abs x) 0%float Fa eq_refl) as [Q|]; [|discriminate]. rewrite fval_abs in Q. change (fval 0%float) with 0 in Q.
    destruct (Req_dec (fval x) 0) as [Z|Z]; [exact Z|]. exfalso. apply Rabs_no_R0 in Z. contradiction.
  - right. destruct (fleb_correct 0x1p-800%float (PrimFloat.abs x) eq_refl Fa) as [Q|]; [|discriminate]. rewrite fval_abs, E' in Q. exact Q.
Qed.
(** a reading is a multiple of 2^-852 *)
Lemma reading_grid x : (fval x = 0 \/ low <= Rabs (fval x)) -> exists m, fval x = IZR m * bpow radix2 (-852).
Proof.
  intros [Z|H]; [exists 0%Z; rewrite Z; ring|].
  pose proof (fval_format x) as G. unfold generic_format in G. set (e := cexp radix2 fexp64 (fval x)) in *.
  assert (HE : (-852 <= e)%Z).
  { unfold e, cexp. assert (M : (-799 <= mag radix2 (fval x))%Z).
    { apply mag_ge_bpow. exact H. }
    unfold fexp64, FLT_exp, SpecFloat.fexp, SpecFloat.emin. change FloatOps.prec with 53%Z. change FloatOps.emax with 1024%Z. lia. }
  exists (Ztrunc (scaled_mantissa radix2 fexp64 (fval x)) * 2 ^ (e + 852))%Z. rewrite G at 1. unfold F2R. cbn [Fnum Fexp]. fold e.
  rewrite mult_IZR, Rmult_assoc. f_equal. change 2%Z with (radix_val radix2). rewrite IZR_Zpower by lia. rewrite <- bpow_plus. f_equal. lia.
Qed.
Lemma reading_gap a b : reading a -> reading b -> fval b = fval a \/ bpow radix2 (-852) <= Rabs (fval b - fval a).
Proof.
  intros Ha Hb. destruct (reading_spec a Ha) as (_ & _ & A). destruct (reading_spec b Hb) as (_ & _ & B).
  destruct (reading_grid a A) as (m & Em). destruct (reading_grid b B) as (k & Ek). destruct (Z.eq_dec k m) as [->|N]; [left; congruence|right].
  rewrite Em, Ek. replace (IZR k * bpow radix2 (-852) - IZR m * bpow radix2 (-852)) with (IZR (k - m) * bpow radix2 (-852)) by (rewrite minus_IZR; ring).
  rewrite Rabs_mult, (Rabs_pos_eq (bpow radix2 (-852))) by apply bpow_ge_0. rewrite <- (Rmult_1_l (bpow radix2 (-852))) at 1.
  apply Rmult_le_compat_r; [apply bpow_ge_0|]. rewrite <- abs_IZR. apply (IZR_le 1). lia.
Qed.

(** ** relative error away from the subnormal numbers *)
Definition v64 : R := u64 + u64 * u64.
Lemma rnd_rel x : bpow radix2 (-960) <= Rabs x -> Rabs (rnd x - x) <= v64 * Rabs x.
Proof.
  intro H. eapply Rle_trans; [apply rnd_err|]. unfold v64. rewrite Rmult_plus_distr_r. apply Rplus_le_compat_l.
  apply Rle_trans with (u64 * u64 * bpow radix2 (-960)); [|apply Rmult_le_compat_l; [pose proof u64_pos; nra|exact H]].
  unfold eta64. replace u64 with (bpow radix2 (-53)) by (unfold u64; cbn; lra). replace (/ 2) with (bpow radix2 (-1)) by (cbn; lra). rewrite <- !bpow_plus. apply bpow_le. lia.
Qed.
Lemma rnd_sign x : (0 <= x -> 0 <= rnd x) /\ (x <= 0 -> rnd x <= 0).
Proof. split; [apply rnd_nonneg|]. intro H. rewrite <- rnd_0. apply rnd_le, H. Qed.

(** ** the value between two readings *)
Section Between.
  Variables (a b : float) (p q : Z).
  Hypothesis (Ha : reading a) (Hb : reading b) (Hp : (1 <= p)%Z) (Hq : (1 <= q)%Z) (Hn : (p + q <= 2 ^ 50)%Z).
  Let n := (p + q)%Z.
  Definition interp_slope : float := ((b - a) / n_ofZ n)%float.
  Definition interp_value : float := (interp_slope * n_ofZ p + a)%float.
  Let A := fval a.
  Let B := fval b.
  Let D := B - A.
  Let M := Rmax (Rabs A) (Rabs B).

  Lemma between_ends : Rmin A B <= A <= Rmax A B /\ Rmin A B <= B <= Rmax A B.
  Proof. repeat split; (apply Rmin_l || apply Rmax_l || apply Rmin_r || apply Rmax_r). Qed.
  Lemma D_cap : Rabs D <= 2 * cap.
  Proof.
    destruct (reading_spec a Ha) as (_ & CA & _). destruct (reading_spec b Hb) as (_ & CB & _). unfold D. fold A in CA. fold B in CB.
    unfold Rminus. eapply Rle_trans; [apply Rabs_triang|]. rewrite Rabs_Ropp. lra.
  Qed.
  Lemma n_val : fval (n_ofZ n) = IZR n /\ 2 <= IZR n <= IZR (2 ^ 50).
  Proof. destruct (ofZ_val n) as [_ V]; [unfold n; lia|]. split; [exact V|]. split; apply IZR_le; unfold n; lia. Qed.
  Lemma p_val : ffin (n_ofZ p) /\ fval (n_ofZ p) = IZR p /\ 1 <= IZR p.
  Proof. destruct (ofZ_val p) as [F V]; [lia|]. split; [exact F|]. split; [exact V|]. apply (IZR_le 1). exact Hp. Qed.

  Let d := rnd D.
  Let s := rnd (d / IZR n).
  Let t := rnd (s * IZR p).

  Lemma sub_ok : ffin (b - a)%float /\ fval (b - a)%float = d.
  Proof.
    destruct (reading_spec a Ha) as (Fa & _). destruct (reading_spec b Hb) as (Fb & _).
    destruct (fsub_correct b a Fb Fa) as [E F].
    - apply rnd_in_range. pose proof D_cap. unfold D, B, A in *. pose proof (bpow_gt_0 radix2 900). unfold cap in *. lra.
    - split; [exact F|exact E].
  Qed.

  (** sizes, for readings that differ *)
  Lemma chain : bpow radix2 (-852) <= Rabs D ->
    Rabs (d - D) <= v64 * Rabs D /\ Rabs (s - d / IZR n) <= v64 * Rabs (d / IZR n) /\ Rabs (t - s * IZR p) <= v64 * Rabs (s * IZR p).
  Proof.
    intro HD. destruct n_val as [_ [N1 N2]]. destruct p_val as (_ & _ & P1). pose proof u64_pos as U.
    assert (V : 0 < v64 <= 1 / 2) by (unfold v64; nra).
    assert (E1 : Rabs (d - D) <= v64 * Rabs D) by (apply rnd_rel; eapply Rle_trans; [|exact HD]; apply bpow_le; lia).
    split; [exact E1|].
    assert (L1 : / 2 * Rabs D <= Rabs d).
    { pose proof (Rabs_triang_inv D d) as K. replace (D - d) with (- (d - D)) in K by ring. rewrite Rabs_Ropp in K. pose proof (Rabs_pos D). nra. }
    assert (IN : / IZR (2 ^ 50) <= / IZR n) by (apply Rinv_le_contravar; lra). assert (I0 : 0 < / IZR (2 ^ 50)) by (apply Rinv_0_lt_compat; lra).
    assert (Q : Rabs (d / IZR n) = Rabs d * / IZR n) by (unfold Rdiv; rewrite Rabs_mult, (Rabs_pos_eq (/ IZR n)) by lra; reflexivity).
    assert (L2 : bpow radix2 (-903) <= Rabs (d / IZR n)).
    { rewrite Q. replace (bpow radix2 (-903)) with ((bpow radix2 (-1) * bpow radix2 (-852)) * bpow radix2 (-50)) by (rewrite <- !bpow_plus; f_equal).
      apply Rmult_le_compat; try (apply Rmult_le_pos; apply bpow_ge_0); try apply bpow_ge_0.
      - eapply Rle_trans; [|exact L1]. change (bpow radix2 (-1)) with (/ 2). apply Rmult_le_compat_l; lra.
      - eapply Rle_trans; [|exact IN]. right. reflexivity. }
    assert (E2 : Rabs (s - d / IZR n) <= v64 * Rabs (d / IZR n)) by (apply rnd_rel; eapply Rle_trans; [|exact L2]; apply bpow_le; lia).
    split; [exact E2|].
    assert (L3 : / 2 * Rabs (d / IZR n) <= Rabs s).
    { pose proof (Rabs_triang_inv (d / IZR n) s) as K. replace (d / IZR n - s) with (- (s - d / IZR n)) in K by ring. rewrite Rabs_Ropp in K. pose proof (Rabs_pos (d / IZR n)). nra. }
    apply rnd_rel. rewrite Rabs_mult, (Rabs_pos_eq (IZR p)) by lra. apply Rle_trans with (Rabs s * 1); [|apply Rmult_le_compat_l; [apply Rabs_pos|exact P1]].
    rewrite Rmult_1_r. eapply Rle_trans; [|exact L3]. apply Rle_trans with (/ 2 * bpow radix2 (-903)); [|apply Rmult_le_compat_l; lra].
    change (/ 2) with (bpow radix2 (-1)). rewrite <- bpow_plus. apply bpow_le. lia.
  Qed.
  Lemma step_up x y : Rabs (x - y) <= v64 * Rabs y -> Rabs x <= (1 + v64) * Rabs y.
  Proof. intro H. replace x with ((x - y) + y) by ring. eapply Rle_trans; [apply Rabs_triang|]. lra. Qed.

  (** the part of the way *)
  Lemma way_err : bpow radix2 (-852) <= Rabs D -> Rabs (t - D * (IZR p / IZR n)) <= 31 / 10 * u64 * Rabs D * (IZR p / IZR n).
  Proof.
    intro HD. destruct (chain HD) as (E1 & E2 & E3). destruct n_val as [_ [N1 N2]]. destruct p_val as (_ & _ & P1). pose proof u64_pos as U.
    assert (V : 0 < v64 <= u64 * (1 + 1 / 1000000)) by (unfold v64; nra).
    assert (I0 : 0 < / IZR n) by (apply Rinv_0_lt_compat; lra).
    assert (Q : Rabs (d / IZR n) = Rabs d * / IZR n) by (unfold Rdiv; rewrite Rabs_mult, (Rabs_pos_eq (/ IZR n)) by lra; reflexivity).
    rewrite Q in E2. pose proof (step_up _ _ E1) as B1. 
    assert (B2 : Rabs s <= (1 + v64) * (Rabs d * / IZR n)) by (rewrite <- Q; apply step_up; rewrite Q; exact E2).
    rewrite Rabs_mult, (Rabs_pos_eq (IZR p)) in E3 by lra.
    set (X := Rabs D) in *. set (i := / IZR n) in *. set (P := IZR p) in *. assert (X0 : 0 <= X) by apply Rabs_pos.
    replace (t - D * (P / IZR n)) with ((t - s * P) + ((s - d / IZR n) * P + (d - D) * i * P)) by (unfold i; field; lra).
    eapply Rle_trans; [apply Rabs_triang|]. pose proof (Rabs_triang ((s - d / IZR n) * P) ((d - D) * i * P)) as TR. rewrite !Rabs_mult, (Rabs_pos_eq P), (Rabs_pos_eq i) in TR by lra.
    change (P / IZR n) with (P * i).
    assert (F1 : Rabs (d - D) * i * P <= v64 * X * i * P) by (apply Rmult_le_compat_r; [lra|]; apply Rmult_le_compat_r; lra).
    assert (Bd : Rabs d * i <= (1 + v64) * X * i) by (apply Rmult_le_compat_r; lra).
    assert (F2 : Rabs (s - d / IZR n) * P <= v64 * ((1 + v64) * X * i) * P).
    { apply Rmult_le_compat_r; [lra|]. eapply Rle_trans; [exact E2|]. apply Rmult_le_compat_l; lra. }
    assert (Bs : Rabs s <= (1 + v64) * ((1 + v64) * X * i)) by (eapply Rle_trans; [exact B2|]; apply Rmult_le_compat_l; lra).
    assert (F3 : v64 * (Rabs s * P) <= v64 * ((1 + v64) * ((1 + v64) * X * i) * P)) by (apply Rmult_le_compat_l; [lra|]; apply Rmult_le_compat_r; lra).
    assert (Y0 : 0 <= X * i * P) by (apply Rmult_le_pos; [apply Rmult_le_pos; lra|lra]). set (Y := X * i * P) in *.
    replace (v64 * X * i * P) with (v64 * Y) in F1 by (unfold Y; ring). replace (v64 * ((1 + v64) * X * i) * P) with (v64 * (1 + v64) * Y) in F2 by (unfold Y; ring).
    replace (v64 * ((1 + v64) * ((1 + v64) * X * i) * P)) with (v64 * (1 + v64) * (1 + v64) * Y) in F3 by (unfold Y; ring).
    replace (31 / 10 * u64 * X * (P * i)) with (31 / 10 * u64 * Y) by (unfold Y; ring).
    assert (C : v64 + v64 * (1 + v64) + v64 * (1 + v64) * (1 + v64) <= 31 / 10 * u64).
    { assert (v64 <= 1 / 1000000) by lra. assert (v64 * v64 <= 1 / 1000000 * v64) by nra. assert (v64 * v64 * v64 <= 1 / 1000000 * v64) by nra. nra. }
    assert (CY : (v64 + v64 * (1 + v64) + v64 * (1 + v64) * (1 + v64)) * Y <= 31 / 10 * u64 * Y) by (apply Rmult_le_compat_r; assumption).
    lra.
  Qed.

  (** it does not go past the end *)
  Lemma way_inside : (0 <= D -> 0 <= t <= D) /\ (D <= 0 -> D <= t <= 0).
  Proof.
    destruct n_val as [_ [N1 N2]]. destruct p_val as (_ & _ & P1). assert (I0 : 0 < / IZR n) by (apply Rinv_0_lt_compat; lra).
    assert (S1 : 0 <= D -> 0 <= t).
    { intro H. apply rnd_sign. apply Rmult_le_pos; [|lra]. apply rnd_sign. apply Rmult_le_pos; [|lra]. apply rnd_sign. exact H. }
    assert (S2 : D <= 0 -> t <= 0).
    { intro H. apply rnd_sign. assert (K : s <= 0); [|nra]. apply rnd_sign. assert (K : d <= 0) by (apply rnd_sign; exact H). unfold Rdiv. nra. }
    assert (SZ : Rabs t <= Rabs D).
    { destruct (reading_gap a b Ha Hb) as [Z|G].
      - assert (Z' : D = 0) by (unfold D, A, B; lra). rewrite Rabs_pos_eq by (apply S1; lra). rewrite Z', Rabs_R0. apply S2. lra.
      - fold A B in G. fold D in G. pose proof (way_err G) as W. pose proof u64_pos as U. pose proof (Rabs_pos D) as X0.
        assert (R1 : IZR p / IZR n <= 1 - / IZR n).
        { replace (1 - / IZR n) with (IZR (n - 1) / IZR n) by (rewrite minus_IZR; field; lra). apply Rmult_le_compat_r; [lra|]. apply IZR_le. unfold n. lia. }
        assert (R0 : 0 <= IZR p / IZR n) by (apply Rmult_le_pos; lra).
        assert (IN : 8 * u64 <= / IZR n).
        { apply Rle_trans with (/ IZR (2 ^ 50)); [|apply Rinv_le_contravar; lra]. unfold u64. cbn. lra. }
        set (r := IZR p / IZR n) in *.
        assert (T : Rabs t <= Rabs D * r + 31 / 10 * u64 * Rabs D * r).
        { replace t with ((t - D * r) + D * r) by ring. eapply Rle_trans; [apply Rabs_triang|]. rewrite (Rabs_mult D r), (Rabs_pos_eq r) by exact R0. lra. }
        eapply Rle_trans; [exact T|]. replace (Rabs D * r + 31 / 10 * u64 * Rabs D * r) with (Rabs D * (r * (1 + 31 / 10 * u64))) by ring.
        rewrite <- (Rmult_1_r (Rabs D)) at 2. apply Rmult_le_compat_l; [exact X0|].
        assert (r * (1 + 31 / 10 * u64) <= (1 - / IZR n) * (1 + 31 / 10 * u64)) by (apply Rmult_le_compat_r; lra).
        assert ((1 - / IZR n) * (1 + 31 / 10 * u64) <= 1 - / IZR n + 31 / 10 * u64).
        { replace ((1 - / IZR n) * (1 + 31 / 10 * u64)) with (1 - / IZR n + 31 / 10 * u64 - / IZR n * (31 / 10 * u64)) by ring. assert (0 <= / IZR n * (31 / 10 * u64)) by (apply Rmult_le_pos; lra). lra. }
        lra. }
    split; intro H.
    - specialize (S1 H). rewrite !Rabs_pos_eq in SZ by assumption. lra.
    - specialize (S2 H). rewrite (Rabs_left1 t S2), (Rabs_left1 D H) in SZ. lra.
  Qed.

  Lemma ops_ok : ffin interp_slope /\ fval interp_slope = s /\ ffin interp_value /\ fval interp_value = rnd (t + A).
  Proof.
    destruct n_val as [En [N1 N2]]. destruct p_val as (Fp & Ep & P1). destruct sub_ok as [Fd Ed]. pose proof D_cap as DC.
    destruct (reading_spec a Ha) as (Fa & CA & _). fold A in CA.
    assert (I0 : 0 < / IZR n) by (apply Rinv_0_lt_compat; lra).
    pose proof (bpow_gt_0 radix2 900) as C0. fold cap in C0.
    assert (Dd : Rabs d <= 2 * cap).
    { unfold d. pose proof (rnd_le D (2 * cap) ltac:(apply Rabs_le_inv in DC; lra)) as K1. pose proof (rnd_le (- (2 * cap)) D ltac:(apply Rabs_le_inv in DC; lra)) as K2.
      assert (G : generic_format radix2 fexp64 (2 * cap)) by (apply (cap_format 2); lia).
      rewrite (round_generic radix2 fexp64 ZnearestE (2 * cap) G) in K1. rewrite (round_generic radix2 fexp64 ZnearestE (- (2 * cap)) (generic_format_opp _ _ _ G)) in K2.
      apply Rabs_le. split; assumption. }
    assert (Q : Rabs (d / IZR n) <= 2 * cap).
    { unfold Rdiv. rewrite Rabs_mult, (Rabs_pos_eq (/ IZR n)) by lra. assert (/ IZR n <= 1) by (rewrite <- Rinv_1; apply Rinv_le_contravar; lra). pose proof (Rabs_pos d). nra. }
    destruct (fdiv_correct (b - a)%float (n_ofZ n) Fd) as [E1 F1]; [rewrite En; lra|rewrite Ed, En; apply rnd_in_range; lra|].
    rewrite Ed, En in E1. fold s in E1. 
    assert (E1' : fval interp_slope = s) by exact E1. assert (F1' : ffin interp_slope) by exact F1.
    split; [exact F1'|]. split; [exact E1'|].
    assert (TB : Rabs t <= 2 * cap).
    { destruct (Rle_dec 0 D) as [K|K]; [destruct (proj1 way_inside K)|destruct (proj2 way_inside ltac:(lra))]; apply Rabs_le; apply Rabs_le_inv in DC; lra. }
    destruct (Req_dec D 0) as [Z|NZ].
    - assert (t0 : t = 0) by (destruct way_inside as [W _]; specialize (W ltac:(lra)); lra).
      assert (s0 : s = 0) by (unfold s, d; rewrite Z, rnd_0; unfold Rdiv; rewrite Rmult_0_l; apply rnd_0).
      destruct (fmul_correct interp_slope (n_ofZ p) F1' Fp) as [E2 F2]; [rewrite E1', Ep, s0, Rmult_0_l, rnd_0, Rabs_R0; apply bpow_gt_0|].
      rewrite E1', Ep in E2. fold t in E2.
      destruct (fadd_correct (interp_slope * n_ofZ p)%float a F2 Fa) as [E3 F3]; [rewrite E2, t0; apply rnd_in_range; rewrite Rplus_0_l; fold A; lra|].
      rewrite E2 in E3. split; [exact F3|exact E3].
    - assert (SP : Rabs (s * IZR p) <= 100 * cap).
      { assert (G : bpow radix2 (-852) <= Rabs D) by (destruct (reading_gap a b Ha Hb) as [K|K]; [exfalso; apply NZ; unfold D, A, B; lra|exact K]).
        destruct (chain G) as (_ & _ & E3). pose proof u64_pos. assert (V : 0 < v64 <= 1 / 2) by (unfold v64; nra).
        pose proof (Rabs_triang_inv (s * IZR p) t) as K. replace (s * IZR p - t) with (- (t - s * IZR p)) in K by ring. rewrite Rabs_Ropp in K. pose proof (Rabs_pos (s * IZR p)). nra. }
      destruct (fmul_correct interp_slope (n_ofZ p) F1' Fp) as [E2 F2]; [rewrite E1', Ep; apply rnd_in_range; exact SP|].
      rewrite E1', Ep in E2. fold t in E2.
      destruct (fadd_correct (interp_slope * n_ofZ p)%float a F2 Fa) as [E3 F3].
      { rewrite E2. apply rnd_in_range. eapply Rle_trans; [apply Rabs_triang|]. fold A. lra. }
      rewrite E2 in E3. split; [exact F3|exact E3].
  Qed.

  Lemma value_between : ffin interp_value /\ Rmin A B <= fval interp_value <= Rmax A B.
  Proof.
    destruct ops_ok as (_ & _ & F & E). split; [exact F|]. rewrite E. destruct way_inside as [W1 W2]. unfold D in *.
    destruct (Rle_dec A B) as [K|K].
    - rewrite Rmin_left, Rmax_right by exact K. specialize (W1 ltac:(lra)). split; [apply rnd_ge_fval; fold A; lra|apply rnd_le_fval; fold B; lra].
    - rewrite Rmin_right, Rmax_left by lra. specialize (W2 ltac:(lra)). split; [apply rnd_ge_fval; fold B; lra|apply rnd_le_fval; fold A; lra].
  Qed.
  Lemma value_equal : B = A -> fval interp_value = A.
  Proof. intro E. destruct value_between as [_ H]. rewrite E in H. rewrite Rmin_left, Rmax_left in H by lra. lra. Qed.

  Lemma max_abs : Rmax A B <= M /\ - M <= Rmin A B.
  Proof. unfold M. pose proof (Rmax_l (Rabs A) (Rabs B)). pose proof (Rmax_r (Rabs A) (Rabs B)). pose proof (Rle_abs A). pose proof (Rle_abs B). pose proof (Rle_abs (- A)). pose proof (Rle_abs (- B)).
    rewrite Rabs_Ropp in *. split; [apply Rmax_lub; lra|apply Rmin_glb; lra]. Qed.
  Lemma value_err : Rabs (fval interp_value - (A + D * (IZR p / IZR n))) <= 1 / 10 ^ 15 * M.
  Proof.
    destruct ops_ok as (_ & _ & _ & E). destruct n_val as [_ [N1 N2]]. destruct p_val as (_ & _ & P1).
    destruct (reading_gap a b Ha Hb) as [Z|G].
    - fold A B in Z. rewrite (value_equal Z). unfold D. rewrite Z. replace (A - (A + (A - A) * (IZR p / IZR n))) with 0 by ring. rewrite Rabs_R0.
      apply Rmult_le_pos; [lra|]. unfold M. eapply Rle_trans; [apply (Rabs_pos A)|apply Rmax_l].
    - fold A B in G. fold D in G. pose proof (way_err G) as W. pose proof u64_pos as U. rewrite E.
      assert (TA : Rabs (t + A) <= M).
      { destruct max_abs as [K1 K2]. destruct way_inside as [W1 W2]. unfold D in W1, W2. apply Rabs_le. destruct (Rle_dec A B) as [K|K].
        - rewrite Rmin_left in K2 by exact K. rewrite Rmax_right in K1 by exact K. specialize (W1 ltac:(lra)). lra.
        - rewrite Rmin_right in K2 by lra. rewrite Rmax_left in K1 by lra. specialize (W2 ltac:(lra)). lra. }
      assert (DM : Rabs D <= 2 * M).
      { unfold D, M, Rminus. eapply Rle_trans; [apply Rabs_triang|]. rewrite Rabs_Ropp. pose proof (Rmax_l (Rabs A) (Rabs B)). pose proof (Rmax_r (Rabs A) (Rabs B)). lra. }
      assert (EM : eta64 <= u64 * u64 * M).
      { apply Rle_trans with (u64 * u64 * (/ 2 * bpow radix2 (-852))).
        - unfold eta64. replace u64 with (bpow radix2 (-53)) by (unfold u64; cbn; lra). change (/ 2) with (bpow radix2 (-1)). rewrite <- !bpow_plus. apply bpow_le. lia.
        - apply Rmult_le_compat_l; [nra|]. lra. }
      assert (R1 : IZR p / IZR n <= 1).
      { apply Rmult_le_reg_r with (IZR n); [lra|]. unfold Rdiv. rewrite Rmult_assoc, Rinv_l, Rmult_1_r, Rmult_1_l by lra. apply IZR_le. unfold n. lia. }
      assert (R0 : 0 <= IZR p / IZR n) by (apply Rmult_le_pos; [lra|left; apply Rinv_0_lt_compat; lra]). set (r := IZR p / IZR n) in *.
      pose proof (rnd_err (t + A)) as RE.
      replace (rnd (t + A) - (A + D * r)) with ((rnd (t + A) - (t + A)) + (t - D * r)) by ring. eapply Rle_trans; [apply Rabs_triang|].
      assert (X0 : 0 <= M) by (unfold M; eapply Rle_trans; [apply (Rabs_pos A)|apply Rmax_l]).
      assert (W' : Rabs (t - D * r) <= 62 / 10 * u64 * M).
      { eapply Rle_trans; [exact W|]. apply Rle_trans with (31 / 10 * u64 * Rabs D * 1); [apply Rmult_le_compat_l; [|exact R1]; apply Rmult_le_pos; [lra|apply Rabs_pos]|].
        rewrite Rmult_1_r. replace (62 / 10 * u64 * M) with (31 / 10 * u64 * (2 * M)) by field. apply Rmult_le_compat_l; lra. }
      assert (T' : u64 * Rabs (t + A) <= u64 * M) by (apply Rmult_le_compat_l; lra).
      assert (UU : u64 * u64 * M <= 1 / 10 * u64 * M) by (apply Rmult_le_compat_r; [exact X0|]; nra).
      assert (F : 8 * u64 * M <= 1 / 10 ^ 15 * M) by (apply Rmult_le_compat_r; [exact X0|]; unfold u64; cbn; lra).
      lra.
  Qed.
End Between.

(** further along the way the value does not turn back *)
Lemma value_monotone a b p q p' q' : reading a -> reading b -> (1 <= p)%Z -> (1 <= q)%Z -> (p + q <= 2 ^ 50)%Z -> (p <= p')%Z -> (1 <= q')%Z -> (p' + q' = p + q)%Z ->
  (fval a <= fval b -> fval (interp_value a b p q) <= fval (interp_value a b p' q')) /\
  (fval b <= fval a -> fval (interp_value a b p' q') <= fval (interp_value a b p q)).
Proof.
  intros Ha Hb Hp Hq Hn PP Hq' EN.
  destruct (ops_ok a b p q Ha Hb Hp Hq Hn) as (_ & _ & _ & E). destruct (ops_ok a b p' q' Ha Hb ltac:(lia) Hq' ltac:(lia)) as (_ & _ & _ & E').
  rewrite EN in E'. rewrite E, E'. set (s := rnd (rnd (fval b - fval a) / IZR (p + q))).
  assert (IP : IZR p <= IZR p') by (apply IZR_le; exact PP). assert (N0 : 0 < / IZR (p + q)) by (apply Rinv_0_lt_compat; apply (IZR_lt 0); lia).
  split; intro H; apply rnd_le, Rplus_le_compat_r, rnd_le.
  - apply Rmult_le_compat_l; [|exact IP]. apply rnd_nonneg. apply Rmult_le_pos; [|lra]. apply rnd_nonneg. lra.
  - assert (S0 : s <= 0); [|nra]. apply rnd_sign. assert (K : rnd (fval b - fval a) <= 0) by (apply rnd_sign; lra). unfold Rdiv. nra.
Qed.

(** ** positions, for any kind of number *)
Open Scope Z_scope.
Section Positions.
  Context {T : Type} {N : Num T}.
  Variables (dir : direction) (limit : option Z) (f : nat -> T) (len : nat).
  Let l := map f (seq 0 len).
  Definition blank (x : T) : Prop := n_isnan x = true.

  Lemma l_len : length l = len.
  Proof. unfold l. rewrite map_length, seq_length. reflexivity. Qed.
  Lemma l_nth k : (k < len)%nat -> nth k l n_nan = f k.
  Proof. intro H. unfold l. rewrite nth_indep with (d' := f 0%nat) by (rewrite map_length, seq_length; exact H). rewrite (map_nth f), seq_nth by exact H. reflexivity. Qed.
  Lemma out_nth k : (k < len)%nat -> nth k (interpolate_linear dir limit l) n_nan = interp_at dir limit l k.
  Proof.
    intro H. unfold interpolate_linear. rewrite nth_indep with (d' := interp_at dir limit l 0) by (rewrite map_length, seq_length, l_len; exact H).
    rewrite (map_nth (interp_at dir limit l)), seq_nth by (rewrite l_len; exact H). reflexivity.
  Qed.
  Lemma firstn_map_seq k : (k <= len)%nat -> firstn k l = map f (seq 0 k).
  Proof.
    intro H. unfold l. rewrite firstn_map. f_equal. replace len with (k + (len - k))%nat by lia. rewrite seq_app, firstn_app, seq_length, Nat.sub_diag, firstn_O, app_nil_r.
    rewrite firstn_all2 by (rewrite seq_length; lia). reflexivity.
  Qed.
  Lemma skipn_map_seq k : (k <= len)%nat -> skipn k l = map f (seq k (len - k)).
  Proof.
    intro H. unfold l. rewrite skipn_map. f_equal. replace len with (k + (len - k))%nat at 1 by lia. rewrite seq_app, skipn_app, seq_length, Nat.sub_diag.
    rewrite skipn_all2 by (rewrite seq_length; lia). reflexivity.
  Qed.
  Lemma scan_before p k : (p < k)%nat -> (k < len)%nat -> n_isnan (f p) = false -> (forall j, (p < j < k)%nat -> blank (f j)) ->
    scan 1 (rev (firstn k l)) = Some (Z.of_nat (k - p), f p).
  Proof.
    intros Hp Hk Fp G. rewrite firstn_map_seq by lia. replace k with (p + (1 + (k - p - 1)))%nat at 1 by lia.
    rewrite !seq_app, !map_app. cbn [seq map List.app]. rewrite !rev_app_distr. cbn [rev]. rewrite <- !app_assoc. cbn [List.app].
    rewrite scan_run.
    - rewrite rev_length, map_length, seq_length. do 2 f_equal. lia.
    - apply Forall_rev, Forall_forall. intros y Hy. apply in_map_iff in Hy as (j & <- & Hj). apply in_seq in Hj. apply G. lia.
    - exact Fp.
  Qed.
  Lemma scan_after q k : (k < q)%nat -> (q < len)%nat -> n_isnan (f q) = false -> (forall j, (k < j < q)%nat -> blank (f j)) ->
    scan 1 (skipn (S k) l) = Some (Z.of_nat (q - k), f q).
  Proof.
    intros Hq Hl Fq G. rewrite skipn_map_seq by lia. replace (len - S k)%nat with ((q - k - 1) + (1 + (len - q - 1)))%nat by lia.
    rewrite !seq_app, !map_app. cbn [seq map List.app]. replace (S k + (q - k - 1))%nat with q by lia.
    rewrite scan_run.
    - rewrite map_length, seq_length. do 2 f_equal. lia.
    - apply Forall_forall. intros y Hy. apply in_map_iff in Hy as (j & <- & Hj). apply in_seq in Hj. apply G. lia.
    - exact Fq.
  Qed.
  Lemma scan_before_none k : (k < len)%nat -> (forall j, (j < k)%nat -> blank (f j)) -> scan 1 (rev (firstn k l)) = None.
  Proof.
    intros Hk G. rewrite firstn_map_seq by lia. apply scan_none, Forall_rev, Forall_forall. intros y Hy. apply in_map_iff in Hy as (j & <- & Hj). apply in_seq in Hj. apply G. lia.
  Qed.
  Lemma scan_after_none k : (k < len)%nat -> (forall j, (k < j < len)%nat -> blank (f j)) -> scan 1 (skipn (S k) l) = None.
  Proof.
    intros Hk G. rewrite skipn_map_seq by lia. apply scan_none, Forall_forall. intros y Hy. apply in_map_iff in Hy as (j & <- & Hj). apply in_seq in Hj. apply G. lia.
  Qed.

  Lemma at_kept k : (k < len)%nat -> n_isnan (f k) = false -> nth k (interpolate_linear dir limit l) n_nan = f k.
  Proof. intros Hk Fk. rewrite out_nth by exact Hk. unfold interp_at. rewrite l_nth, Fk by exact Hk. reflexivity. Qed.
  Lemma at_between p q k : (p < k < q)%nat -> (q < len)%nat -> n_isnan (f p) = false -> n_isnan (f q) = false -> (forall j, (p < j < q)%nat -> blank (f j)) ->
    nth k (interpolate_linear dir limit l) n_nan =
    if forward_ok dir limit (Z.of_nat (k - p)) || backward_ok dir limit (Z.of_nat (q - k))
    then ((f q - f p) / n_ofZ (Z.of_nat (k - p) + Z.of_nat (q - k)) * n_ofZ (Z.of_nat (k - p)) + f p)%num else n_nan.
  Proof.
    intros H1 H2 Fp Fq G. rewrite out_nth by lia. unfold interp_at. rewrite l_nth by lia. assert (Bk : n_isnan (f k) = true) by (apply G; lia). rewrite Bk. cbv zeta.
    rewrite (scan_before p k), (scan_after q k) by (try assumption; try lia; intros j Hj; apply G; lia). rewrite preserved_inside.
    destruct (_ || _); reflexivity.
  Qed.
  Lemma at_leading q k : (k < q)%nat -> (q < len)%nat -> n_isnan (f q) = false -> (forall j, (j < q)%nat -> blank (f j)) ->
    nth k (interpolate_linear dir limit l) n_nan = if backward_ok dir limit (Z.of_nat (q - k)) then f q else n_nan.
  Proof.
    intros H1 H2 Fq G. rewrite out_nth by lia. unfold interp_at. rewrite l_nth by lia. assert (Bk : n_isnan (f k) = true) by (apply G; lia). rewrite Bk. cbv zeta.
    rewrite (scan_before_none k), (scan_after q k) by (try assumption; try lia; intros j Hj; apply G; lia). rewrite preserved_leading. destruct (backward_ok _ _ _); reflexivity.
  Qed.
  Lemma at_trailing p k : (p < k < len)%nat -> n_isnan (f p) = false -> (forall j, (p < j < len)%nat -> blank (f j)) ->
    nth k (interpolate_linear dir limit l) n_nan = if forward_ok dir limit (Z.of_nat (k - p)) then f p else n_nan.
  Proof.
    intros H1 Fp G. rewrite out_nth by lia. unfold interp_at. rewrite l_nth by lia. assert (Bk : n_isnan (f k) = true) by (apply G; lia). rewrite Bk. cbv zeta.
    rewrite (scan_before p k), (scan_after_none k) by (try assumption; try lia; intros j Hj; apply G; lia). rewrite preserved_trailing. destruct (forward_ok _ _ _); reflexivity.
  Qed.
End Positions.

Lemma column_lookup_any {A} h (cols : list (Z * list A)) : column_for h cols = lookup h cols.
Proof. induction cols as [|[h' v] r IH]; [reflexivity|]. cbn [column_for lookup]. destruct (h' =? h); [reflexivity|exact IH]. Qed.
Lemma nth_chunk {A} (l : list A) i h d : (h < 24)%nat -> nth h (chunk 24 i l) d = nth (24 * i + h) l d.
Proof.
  intro H. unfold chunk. assert (F : forall (u : list A) k j, (j < k)%nat -> nth j (firstn k u) d = nth j u d).
  { induction u as [|x u IH]; intros [|k] [|j] L; try lia; try reflexivity. cbn [firstn nth]. apply IH. lia. }
  rewrite F by exact H. clear F. revert l. generalize (24 * i)%nat. intro k. induction k as [|k IH]; intro l; [reflexivity|]. destruct l as [|x l]; [destruct h; reflexivity|]. cbn [skipn Nat.add nth]. apply IH.
Qed.
Lemma prepared_floats e d0 n (cols : list (Z * list float)) : has_series_append e = true ->
  Forall (fun c => 0 <= fst c < 24 /\ length (snd c) = S n) cols -> NoDup (map fst cols) ->
  exists data, prepare_interpolation_data e (daily_index d0 (S n)) cols = Ok data /\ map fst data = hours_index d0 (S n) /\
    map snd data = map (seen cols) (seq 0 (24 * S n)).
Proof.
  intros HE F ND. destruct (prepare_ok e d0 n cols HE F ND) as (data & E & I & V). exists data. split; [exact E|]. split; [exact I|].
  assert (L : length (map snd data) = (24 * S n)%nat).
  { rewrite map_length, <- (map_length fst data), I. unfold hours_index. rewrite grid_length. reflexivity. }
  apply nth_ext with (d := nan) (d' := seen cols 0); [rewrite L, map_length, seq_length; reflexivity|].
  intros k Hk. rewrite L in Hk. rewrite (map_nth (seen cols)), seq_nth by exact Hk. cbn [Nat.add].
  assert (Hi : (k / 24 < S n)%nat) by (apply Nat.div_lt_upper_bound; lia). assert (Hh : (k mod 24 < 24)%nat) by (apply Nat.mod_upper_bound; lia).
  specialize (V (k / 24)%nat (k mod 24)%nat Hi Hh). rewrite <- column_lookup_any in V. fold (seen cols k) in V. change (n_nan : float) with nan in V.
  unfold seen. rewrite <- V.
  assert (C : data = combine (hours_index d0 (S n)) (map snd data)).
  { rewrite <- I. clear. induction data as [|[t x] r IH]; [reflexivity|]. cbn [map combine fst snd]. f_equal. exact IH. }
  rewrite C at 2. rewrite values_on_hours by (rewrite ?L; lia). rewrite nth_chunk by exact Hh.
  rewrite <- (Nat.div_mod k 24) by lia. reflexivity.
Qed.
