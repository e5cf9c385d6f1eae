(** Rounding errors of the humidity method 'min_max' in binary64. *)
From Coq Require Import String ZArith List Bool Lia Reals Lra Floats Permutation.
From Flocq Require Import Core BinarySingleNaN PrimFloat.
From Verif Require Import Py Num Cal Series UtilModel UtilModel2 Frame HumModel SpecBase SpecUtil TimeProofs EqualProofs IndexProofs DaysProofs InterpProofs TempProofs TempCourse
  HumProofs F64 CascadeFloat CascadeRound FiveRound SpecCourseRound CourseRound SpecSineRound ErrCalc SineRound WindRound SpecHumRound.
Import ListNotations.
Open Scope R_scope.
Notation float := PrimFloat.float (only parsing).

Section Value.
  Variables lo hi a b : float.
  Hypothesis HD : humid_day lo hi a b.
  Definition humid_raw (T : float) : float := (b + (T - lo) / (hi - lo) * (a - b))%float.
  Definition humid (T : float) : float := clip1 n0 (n_ofZ 100) (humid_raw T).

  Lemma hundred : ffin 100%float /\ fval 100%float = 100.
  Proof. split; [reflexivity|]. unfold fval; vm_compute; lra. Qed.
  Lemma percent_spec x : percent x -> ffin x /\ 0 <= fval x <= 100.
  Proof.
    unfold percent. rewrite andb_true_iff. intros [A B]. destruct hundred as [F1 V1].
    assert (F : ffin x) by (apply (between_finite 0%float x 100%float); (reflexivity || assumption)).
    apply (leb_true _ _ ffin_zero F) in A. apply (leb_true _ _ F F1) in B. change (fval n0) with 0 in A. rewrite V1 in B. tauto.
  Qed.
  Lemma bounds : ffin lo /\ ffin hi /\ Rabs (fval lo) <= cap4 /\ Rabs (fval hi) <= cap4 /\ fval lo < fval hi /\ ffin a /\ ffin b /\ 0 <= fval a <= fval b /\ fval b <= 100.
  Proof.
    destruct HD as (Ml & Mh & LT & Pa & Pb & AB). destruct (modest_spec lo Ml) as [Fl Bl], (modest_spec hi Mh) as [Fh Bh].
    destruct (fltb_correct lo hi Fl Fh) as [L|]; [|discriminate]. destruct (percent_spec a Pa) as [Fa Ba], (percent_spec b Pb) as [Fb Bb].
    apply (leb_true _ _ Fa Fb) in AB. tauto.
  Qed.

  (** the slope *)
  Lemma slope : ffin (a - b)%float /\ -100 <= fval (a - b)%float <= 0 /\ Rabs (fval (a - b)%float - (fval a - fval b)) <= 100 * u64.
  Proof.
    destruct bounds as (_ & _ & _ & _ & _ & Fa & Fb & AB & B1). pose proof cap_1 as C1. pose proof u64_pos as U.
    destruct (fsub_correct a b Fa Fb) as [E F]; [apply rnd_in_range; apply Rabs_le; split; lra|].
    split; [exact F|]. rewrite E. destruct hundred as [F1 V1].
    assert (LO : -100 <= rnd (fval a - fval b)).
    { destruct (opp_val 100%float F1) as [Fo Vo]. rewrite V1 in Vo. apply Rle_trans with (fval (- (100))%float); [rewrite Vo; lra|]. apply rnd_ge_fval. rewrite Vo. lra. }
    assert (UP : rnd (fval a - fval b) <= 0) by (rewrite <- rnd_0; apply rnd_le; lra).
    split; [split; assumption|]. pose proof (rnd_rel_sub a b) as R. eapply Rle_trans; [exact R|]. rewrite Rmult_comm. apply Rmult_le_compat_r; [lra|]. apply Rabs_le. lra.
  Qed.

  Lemma warm_spec T : warm lo hi T -> ffin T /\ fval lo <= fval T /\ fval T - fval lo <= 2 * (fval hi - fval lo) /\ Rabs (fval T) <= cap.
  Proof.
    intros (F & L & R). apply ffin_spec in F. destruct bounds as (Fl & _ & Bl & Bh & LT & _). apply (leb_true _ _ Fl F) in L.
    split; [exact F|]. split; [exact L|]. split; [exact R|]. apply Rabs_le_inv in Bl, Bh. pose proof cap4_square as [K1 K2]. apply Rabs_le.
    assert (8 * cap4 <= 8 * (cap4 * cap4)) by nra. lra.
  Qed.

  (** relative position of the temperature *)
  Lemma position T : warm lo hi T -> let q := ((T - lo) / (hi - lo))%float in
    ffin q /\ 0 <= fval q <= 3 /\ fval q = rnd (rnd (fval T - fval lo) / fval (hi - lo)%float) /\ 0 < fval (hi - lo)%float /\
    Rabs (fval q - (fval T - fval lo) / (fval hi - fval lo)) <= 10 * u64.
  Proof.
    intros W q. destruct (warm_spec T W) as (FT & LT & TW & BT). destruct bounds as (Fl & Fh & Bl & Bh & LH & _).
    pose proof cap4_square as [K1 K2]. pose proof cap_1 as C1. assert (K3 : cap4 <= cap) by (clear - K1 K2; assert (1 * cap4 <= cap4 * cap4) by (apply Rmult_le_compat_r; lra); lra).
    destruct (diff_spec lo hi Fl Fh) as (FD & ED & D0 & RD); [lra|lra|lra|].
    destruct (diff_spec lo T Fl FT) as (Fd & Ed & d0 & Rd); [lra|exact BT|exact LT|].
    set (R := fval hi - fval lo) in *. set (t := fval T - fval lo) in *. assert (R0 : 0 < R) by (unfold R; lra). assert (t0 : 0 <= t <= 2 * R) by (split; [unfold t; lra|exact TW]).
    apply Rabs_le_inv in RD, Rd. set (D := fval (hi - lo)%float) in *. set (dv := fval (T - lo)%float) in *.
    assert (U : u64 = / 9007199254740992) by reflexivity.
    assert (DP : 0 < D) by (rewrite U in *; lra).
    set (r := t / R). assert (Et : t = r * R) by (unfold r; field; lra). assert (Hr : 0 <= r <= 2).
    { unfold r. split; [apply Rmult_le_pos; [lra|left; apply Rinv_0_lt_compat, R0]|]. apply Rmult_le_reg_r with R; [exact R0|]. unfold Rdiv. rewrite Rmult_assoc, Rinv_l by lra. lra. }
    set (q0 := dv / D). assert (Q0 : r * (1 - 3 * u64) <= q0 <= r * (1 + 3 * u64)).
    { assert (EQ : q0 * D = dv) by (unfold q0; field; lra).
      assert (P0 : 0 <= r * R) by (rewrite <- Et; lra).
      split; (apply Rmult_le_reg_r with D; [exact DP|]); rewrite EQ.
      - assert (r * D <= r * (R + u64 * R)) by (apply Rmult_le_compat_l; lra).
        replace (r * (1 - 3 * u64) * D) with ((1 - 3 * u64) * (r * D)) by ring.
        apply Rle_trans with ((1 - 3 * u64) * (r * (R + u64 * R))); [apply Rmult_le_compat_l; [rewrite U; lra|assumption]|].
        replace (r * (R + u64 * R)) with ((1 + u64) * (r * R)) by ring. rewrite Et in Rd. rewrite U in *. lra.
      - assert (r * (R - u64 * R) <= r * D) by (apply Rmult_le_compat_l; lra).
        replace (r * (1 + 3 * u64) * D) with ((1 + 3 * u64) * (r * D)) by ring.
        apply Rle_trans with ((1 + 3 * u64) * (r * (R - u64 * R))); [|apply Rmult_le_compat_l; [rewrite U; lra|assumption]].
        replace (r * (R - u64 * R)) with ((1 - u64) * (r * R)) by ring. rewrite Et in Rd. rewrite U in *. lra. }
    assert (Q1 : 0 <= q0) by (rewrite U in Q0; lra).
    destruct (fdiv_correct (T - lo)%float (hi - lo)%float Fd) as [E F]; [fold D; lra|fold D; fold dv; fold q0; apply rnd_in_range; rewrite Rabs_pos_eq by exact Q1; rewrite U in Q0; lra|].
    fold D in E. fold dv in E. fold q0 in E. fold q in E, F. pose proof (rnd_err_nn q0 Q1) as RE. rewrite <- E in RE. apply Rabs_le_inv in RE. pose proof eta_tiny as ET.
    assert (EU : eta64 <= u64) by (rewrite U; lra).
    split; [exact F|]. split; [split; [rewrite E; apply rnd_nonneg, Q1|rewrite U in *; lra]|]. split; [rewrite E; unfold q0; rewrite Ed; reflexivity|]. split; [exact DP|].
    apply Rabs_le. rewrite U in *. lra.
  Qed.

  Lemma raw_facts T : warm lo hi T -> let q := ((T - lo) / (hi - lo))%float in
    ffin (humid_raw T) /\ fval (humid_raw T) = rnd (fval b + rnd (fval q * fval (a - b)%float)) /\ fval (humid_raw T) <= fval b /\
    Rabs (fval (humid_raw T) - (fval b - (fval T - fval lo) / (fval hi - fval lo) * (fval b - fval a))) <= 2 / 10 ^ 13.
  Proof.
    intros W q. destruct (position T W) as (Fq & Bq & _ & _ & Eq). fold q in Fq, Bq, Eq. destruct slope as (Fc & Bc & Ec). destruct bounds as (_ & _ & _ & _ & LH & Fa & Fb & AB & B1).
    destruct (warm_spec T W) as (_ & LT & TW & _). pose proof cap_1 as C1. pose proof eta_tiny as ET. assert (U : u64 = / 9007199254740992) by reflexivity.
    set (r := (fval T - fval lo) / (fval hi - fval lo)) in *.
    assert (Hr : 0 <= r <= 2).
    { unfold r. split; [apply Rmult_le_pos; [lra|left; apply Rinv_0_lt_compat; lra]|]. apply Rmult_le_reg_r with (fval hi - fval lo); [lra|]. unfold Rdiv. rewrite Rmult_assoc, Rinv_l by lra. lra. }
    set (qv := fval q) in *. set (c := fval (a - b)%float) in *.
    assert (PC : -300 <= qv * c <= 0).
    { split; [|nra]. assert (0 <= qv * (c + 100)) by (apply Rmult_le_pos; lra). lra. }
    assert (PE : Rabs (qv * c - r * (fval a - fval b)) <= 1200 * u64).
    { replace (qv * c - r * (fval a - fval b)) with ((qv - r) * c + r * (c - (fval a - fval b))) by ring.
      eapply Rle_trans; [apply Rabs_triang|]. rewrite !Rabs_mult. rewrite (Rabs_pos_eq r) by lra.
      assert (A1 : Rabs (qv - r) * Rabs c <= 10 * u64 * 100) by (apply Rmult_le_compat; [apply Rabs_pos|apply Rabs_pos|exact Eq|apply Rabs_le; lra]).
      assert (A2 : r * Rabs (c - (fval a - fval b)) <= 2 * (100 * u64)) by (apply Rmult_le_compat; [lra|apply Rabs_pos|lra|exact Ec]). lra. }
    destruct (fmul_correct q (a - b)%float Fq Fc) as [Em Fm]; [fold qv; fold c; apply rnd_in_range; apply Rabs_le; lra|]. fold qv in Em. fold c in Em.
    pose proof (rnd_err (qv * c)) as R1. rewrite <- Em in R1. set (p := (q * (a - b))%float) in *.
    assert (A1 : u64 * Rabs (qv * c) <= 300 * u64) by (rewrite Rmult_comm; apply Rmult_le_compat_r; [rewrite U; lra|apply Rabs_le; lra]).
    assert (P0 : fval p <= 0) by (rewrite Em, <- rnd_0; apply rnd_le; lra).
    apply Rabs_le_inv in R1, PE. assert (PB : -301 <= fval p) by (rewrite U in *; lra).
    destruct (fadd_correct b p Fb Fm) as [Es Fs]; [apply rnd_in_range; apply Rabs_le; lra|].
    change (humid_raw T) with (b + p)%float. split; [exact Fs|]. split; [rewrite Es, Em; reflexivity|].
    split; [rewrite Es; apply rnd_le_fval; lra|].
    pose proof (rnd_rel b p) as R2. rewrite <- Es in R2.
    assert (A2 : u64 * Rabs (fval b + fval p) <= 301 * u64) by (rewrite Rmult_comm; apply Rmult_le_compat_r; [rewrite U; lra|apply Rabs_le; lra]).
    apply Rabs_le_inv in R2. apply Rabs_le. replace (r * (fval b - fval a)) with (- (r * (fval a - fval b))) by ring. rewrite U in *. lra.
  Qed.

  Lemma clip_val x : ffin x -> fval x <= 100 -> ffin (clip1 n0 (n_ofZ 100) x) /\ fval (clip1 n0 (n_ofZ 100) x) = Rmax 0 (fval x).
  Proof.
    intros F B. unfold clip1. change (n_ltb x n0) with (x <? n0)%float. change (n_ltb (n_ofZ 100) x) with (100 <? x)%float. destruct hundred as [F1 V1].
    destruct (fltb_correct x n0 F ffin_zero) as [L|L]; change (fval n0) with 0 in L.
    - split; [reflexivity|]. change (fval n0) with 0. rewrite Rmax_left by lra. reflexivity.
    - destruct (fltb_correct 100%float x F1 F) as [K|K]; [rewrite V1 in K; lra|]. split; [exact F|]. rewrite Rmax_right by lra. reflexivity.
  Qed.

  Lemma humid_facts T : warm lo hi T -> ffin (humid T) /\ 0 <= fval (humid T) <= fval b /\ fval (humid T) = Rmax 0 (fval (humid_raw T)) /\
    Rabs (fval (humid T) - humid_exact lo hi a b T) <= 2 / 10 ^ 13.
  Proof.
    intro W. destruct (raw_facts T W) as (Fs & _ & UB & E). destruct bounds as (_ & _ & _ & _ & _ & _ & _ & AB & B1).
    destruct (clip_val (humid_raw T) Fs) as [FC EC]; [lra|]. unfold humid. split; [exact FC|]. rewrite EC. split; [split; [apply Rmax_l|apply Rmax_lub; lra]|]. split; [reflexivity|].
    unfold humid_exact. set (y := fval b - _) in *. apply Rabs_le_inv in E. apply Rabs_le. unfold Rmax. destruct (Rle_dec 0 (fval (humid_raw T))), (Rle_dec 0 y); lra.
  Qed.
  Lemma humid_at_lo T : warm lo hi T -> fval T = fval lo -> fval (humid T) = fval b.
  Proof.
    intros W E. destruct (humid_facts T W) as (_ & _ & EC & _). destruct (raw_facts T W) as (_ & Er & _). destruct (position T W) as (_ & _ & Eq & _).
    rewrite EC, Er, Eq, E. rewrite Rminus_diag_eq, rnd_0 by reflexivity. unfold Rdiv. rewrite Rmult_0_l, rnd_0, Rmult_0_l, rnd_0, Rplus_0_r, rnd_fval.
    destruct bounds as (_ & _ & _ & _ & _ & _ & _ & AB & B1). apply Rmax_right. lra.
  Qed.
  Lemma humid_antitone T T' : warm lo hi T -> warm lo hi T' -> fval T <= fval T' -> fval (humid T') <= fval (humid T).
  Proof.
    intros W W' L. destruct (humid_facts T W) as (_ & _ & EC & _). destruct (humid_facts T' W') as (_ & _ & EC' & _).
    destruct (raw_facts T W) as (_ & Er & _). destruct (raw_facts T' W') as (_ & Er' & _). destruct (position T W) as (_ & _ & Eq & DP & _). destruct (position T' W') as (_ & _ & Eq' & _).
    destruct slope as (_ & Bc & _).
    rewrite EC, EC'. apply Rle_max_compat_l. rewrite Er, Er'. apply rnd_le. apply Rplus_le_compat_l. apply rnd_le.
    assert (Q : fval ((T - lo) / (hi - lo))%float <= fval ((T' - lo) / (hi - lo))%float).
    { rewrite Eq, Eq'. apply rnd_le. unfold Rdiv. apply Rmult_le_compat_r; [left; apply Rinv_0_lt_compat, DP|]. apply rnd_le. lra. }
    nra.
  Qed.
End Value.

(** ** the series *)
Open Scope Z_scope.
Section Series.
  Context {T : Type} {N : Num T}.
  Lemma hours_function d0 n (s : series T) : map fst s = hours_index d0 n ->
    s = map (fun t => (t, match lookup t s with Some v => v | None => n_nan end)) (hours_index d0 n).
  Proof.
    intro E. assert (ND : NoDup (map fst s)) by (rewrite E; apply sorted_NoDup, grid_sorted; reflexivity).
    rewrite <- E, map_map. rewrite <- (map_id s) at 1. apply map_ext_in. intros [t v] Hin. cbn [fst]. apply (lookup_In t v s ND) in Hin.
    change (lookup t s) with (lookup t (s : list (Z * T))). rewrite Hin. reflexivity.
  Qed.
  Lemma series_op_any (f : T -> T -> T) (g h : Z -> T) l :
    series_op f (map (fun t => (t, g t)) l) (map (fun t => (t, h t)) l) = map (fun t => (t, f (g t) (h t))) l.
  Proof.
    unfold series_op, index, values. rewrite !map_map. cbn [fst snd]. rewrite map_id, same_labels_refl, combine_maps, map_map. cbn [fst snd].
    rewrite <- (map_id l) at 1. apply combine_maps.
  Qed.
  Lemma distribute_function e d0 (a : list T) : n_isnan (n_nan : T) = true -> a <> [] ->
    exists g, distribute_equally e (daily d0 a) false = Ok (map (fun t => (t, g t)) (hours_index d0 (length a))) /\
      forall i h v, nth_error a i = Some v -> (h < 24)%nat -> n_isnan v = false -> g (stamp (d0 + Z.of_nat i) h) = v.
  Proof.
    intros NN NE. destruct (distribute_own_day NN e d0 a NE) as (out & E & I & D). set (g := fun t => match lookup t out with Some v => v | None => n_nan end).
    assert (F : out = map (fun t => (t, g t)) (hours_index d0 (length a))) by exact (hours_function d0 (length a) out I). exists g. split; [rewrite E; f_equal; exact F|].
    intros i h v Hi Hh Hv. destruct (D i v Hi) as [_ V]. rewrite Hv in V.
    assert (V' : values_on (d0 + Z.of_nat i) (map (fun t => (t, g t)) (hours_index d0 (length a))) = repeat v 24) by (rewrite <- F; exact V). clear V. rename V' into V.
    rewrite (values_on_map_hours g d0 (length a) i) in V by (apply nth_error_Some; congruence).
    assert (Q : nth_error (map (fun h => g (stamp (d0 + Z.of_nat i) h)) (seq 0 24)) h = Some (g (stamp (d0 + Z.of_nat i) h))).
    { rewrite nth_error_map, (nth_error_nth' (seq 0 24) h O) by (rewrite seq_length; exact Hh). rewrite seq_nth by exact Hh. reflexivity. }
    rewrite V in Q. apply nth_error_In in Q. apply repeat_spec in Q. exact Q.
  Qed.
  Lemma fcol_daily (d : dframe T) d0 n name l : f_index d = daily_index d0 n -> assoc name (f_cols d) = Some l -> length l = n -> fcol name d = Ok (daily d0 l).
  Proof. intros E A L. unfold fcol. rewrite A, E. unfold daily. rewrite L. reflexivity. Qed.

  Lemma min_max_function saturation wave e (d : dframe T) d0 n hmin hmax tmin tmax tp a0 a1 kr mhp : n_isnan (n_nan : T) = true -> n <> O ->
    f_index d = daily_index d0 n -> assoc "hum_min" (f_cols d) = Some hmin -> assoc "hum_max" (f_cols d) = Some hmax ->
    assoc "tmin" (f_cols d) = Some tmin -> assoc "tmax" (f_cols d) = Some tmax ->
    length hmin = n -> length hmax = n -> length tmin = n -> length tmax = n -> map fst tp = hours_index d0 n ->
    exists out, disaggregate_humidity_gen saturation wave e d "min_max" (Some tp) a0 a1 kr mhp false = Ok out /\ map fst out = hours_index d0 n /\
      forall i lo hi a b, nth_error tmin i = Some lo -> nth_error tmax i = Some hi -> nth_error hmin i = Some a -> nth_error hmax i = Some b ->
        n_isnan lo = false -> n_isnan hi = false -> n_isnan a = false -> n_isnan b = false ->
        values_on (d0 + Z.of_nat i) out
        = map (fun x => clip1 n0 (n_ofZ 100) (b + (x - lo) / (hi - lo) * (a - b))%num) (values_on (d0 + Z.of_nat i) tp).
  Proof.
    intros NN NE FI C1 C2 C3 C4 L1 L2 L3 L4 ET.
    assert (NEl : forall l : list T, length l = n -> l <> []) by (intros l L K; subst l; cbn in L; congruence).
    destruct (distribute_function e d0 hmin NN (NEl _ L1)) as (g1 & E1 & G1). destruct (distribute_function e d0 hmax NN (NEl _ L2)) as (g2 & E2 & G2).
    destruct (distribute_function e d0 tmin NN (NEl _ L3)) as (g3 & E3 & G3). destruct (distribute_function e d0 tmax NN (NEl _ L4)) as (g4 & E4 & G4).
    rewrite L1 in E1. rewrite L2 in E2. rewrite L3 in E3. rewrite L4 in E4.
    set (f := fun t => match lookup t tp with Some v => v | None => n_nan end).
    assert (FT : tp = map (fun t => (t, f t)) (hours_index d0 n)) by exact (hours_function d0 n tp ET).
    unfold disaggregate_humidity_gen. cbn [existsb String.eqb Ascii.eqb Bool.eqb orb negb]. unfold raw_humidity. cbn [String.eqb Ascii.eqb Bool.eqb orb].
    rewrite C1, C2, (fcol_daily d d0 n _ _ FI C1 L1), (fcol_daily d d0 n _ _ FI C2 L2), (fcol_daily d d0 n _ _ FI C3 L3), (fcol_daily d d0 n _ _ FI C4 L4). cbn [bind].
    rewrite E1, E2, E3, E4. cbn [bind]. clearbody f. subst tp. rewrite (series_op_any n_sub f g3), (series_op_any n_sub g4 g3), (series_op_any n_sub g1 g2).
    rewrite (series_op_any n_div), (series_op_any n_mul), (series_op_any n_add). cbn [bind].
    eexists. split; [reflexivity|]. rewrite !map_map. cbn [fst snd]. split; [apply map_id|].
    intros i lo hi a b H3 H4 H1 H2 N3 N4 N1 N2. assert (Hi : (i < n)%nat) by (rewrite <- L3; apply nth_error_Some; congruence).
    rewrite !(values_on_map_hours _ d0 n i Hi). rewrite map_map. apply map_ext_in. intros h Hh. apply in_seq in Hh.
    rewrite (G1 i h a), (G2 i h b), (G3 i h lo), (G4 i h hi) by (assumption || lia). reflexivity.
  Qed.
End Series.
