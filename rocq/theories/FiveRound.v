(** Rounding errors of the 5-minute cascade in binary64. *)
From Coq Require Import ZArith List Bool Lia Reals Lra Floats FinFun Permutation.
From Flocq Require Import Core Relative Plus_error.
From Verif Require Import Py Num Cal Series UtilModel SpecBase TimeProofs CascadeModel PrecipModel SpecCascade
  CascadeProofs CascadeSteps CascadeExact CascadeMore CascadeFive F64 CascadeFloat CascadeRound
  SpecMasterRound MasterRound SpecFiveRound FiveModel.
Import ListNotations.
Open Scope R_scope.
Notation float := PrimFloat.float (only parsing).

Lemma moderate_fok x : moderate x <-> fok x.
Proof.
  split; [apply fok_of_bounds|]. intros ((F & P) & C). unfold moderate.
  destruct (fleb_correct 0%float x ffin_zero F) as [_|K]; [|exfalso; apply K; exact P].
  assert (E : fval 0x1p900%float = cap) by (unfold fval, cap; vm_compute; lra).
  destruct (fleb_correct x 0x1p900%float F eq_refl) as [_|K]; [reflexivity|exfalso; apply K; rewrite E; exact C].
Qed.

Lemma INR_le k n : (k <= n)%nat -> INR k <= IZR (Z.of_nat n).
Proof. intro H. rewrite <- INR_IZR_INZ. apply le_INR, H. Qed.

(** ** one rounded sum or difference *)
Lemma rnd_rel x y : Rabs (rnd (fval x + fval y) - (fval x + fval y)) <= u64 * Rabs (fval x + fval y).
Proof.
  destruct (@FLT_plus_error_N_ex radix2 (-1074) 53 eq_refl (fun z => negb (Z.even z)) (fval x) (fval y) (fval_format x) (fval_format y))
    as (eps & He & E).
  change (round radix2 (FLT_exp (-1074) 53) ZnearestE (fval x + fval y)) with (rnd (fval x + fval y)) in E. rewrite E.
  assert (B : Rabs eps <= u64).
  { eapply Rle_trans; [exact He|]. unfold u_ro. change (bpow radix2 (- (53) + 1)) with (/ 4503599627370496). unfold u64. lra. }
  replace ((fval x + fval y) * (1 + eps) - (fval x + fval y)) with (eps * (fval x + fval y)) by ring.
  rewrite Rabs_mult. apply Rmult_le_compat_r; [apply Rabs_pos|exact B].
Qed.
Lemma rnd_rel_sub x y : Rabs (rnd (fval x - fval y) - (fval x - fval y)) <= u64 * Rabs (fval x - fval y).
Proof.
  destruct (@FLT_plus_error_N_ex radix2 (-1074) 53 eq_refl (fun z => negb (Z.even z)) (fval x) (- fval y) (fval_format x) (generic_format_opp _ _ _ (fval_format y)))
    as (eps & He & E).
  change (fval x + - fval y) with (fval x - fval y) in E.
  change (round radix2 (FLT_exp (-1074) 53) ZnearestE (fval x - fval y)) with (rnd (fval x - fval y)) in E. rewrite E.
  assert (B : Rabs eps <= u64).
  { eapply Rle_trans; [exact He|]. unfold u_ro. change (bpow radix2 (- (53) + 1)) with (/ 4503599627370496). unfold u64. lra. }
  replace ((fval x - fval y) * (1 + eps) - (fval x - fval y)) with (eps * (fval x - fval y)) by ring.
  rewrite Rabs_mult. apply Rmult_le_compat_r; [apply Rabs_pos|exact B].
Qed.
Lemma cap_big : 1000 * cap < big.
Proof. exact (cap_lt_big 1000 ltac:(lia)). Qed.

(** a sum of size at most [M <= 100 cap] *)
Lemma add_step x y M : ffin x -> ffin y -> Rabs (fval x + fval y) <= M -> M <= 100 * cap ->
  ffin (x + y)%float /\ Rabs (fval (x + y)%float - (fval x + fval y)) <= u64 * M.
Proof.
  intros Fx Fy H HM. pose proof (rnd_rel x y) as R. pose proof u64_pos as U. pose proof cap_big as B.
  assert (P : 0 < cap) by apply bpow_gt_0.
  assert (R' : Rabs (rnd (fval x + fval y) - (fval x + fval y)) <= u64 * M) by (eapply Rle_trans; [exact R|apply Rmult_le_compat_l; lra]).
  assert (UM : u64 * M <= M) by (pose proof (Rabs_pos (fval x + fval y)); rewrite <- (Rmult_1_l M) at 2; apply Rmult_le_compat_r; lra).
  destruct (fadd_correct x y Fx Fy) as [E F].
  { apply Rabs_le_inv in R', H. apply Rabs_lt. lra. }
  split; [exact F|]. rewrite E. exact R'.
Qed.
Lemma sub_step_err x y M : ffin x -> ffin y -> Rabs (fval x - fval y) <= M -> M <= 100 * cap ->
  ffin (x - y)%float /\ Rabs (fval (x - y)%float - (fval x - fval y)) <= u64 * M.
Proof.
  intros Fx Fy H HM. pose proof (rnd_rel_sub x y) as R. pose proof u64_pos as U. pose proof cap_big as B.
  assert (P : 0 < cap) by apply bpow_gt_0.
  assert (R' : Rabs (rnd (fval x - fval y) - (fval x - fval y)) <= u64 * M) by (eapply Rle_trans; [exact R|apply Rmult_le_compat_l; lra]).
  assert (UM : u64 * M <= M) by (pose proof (Rabs_pos (fval x - fval y)); rewrite <- (Rmult_1_l M) at 2; apply Rmult_le_compat_r; lra).
  destruct (fsub_correct x y Fx Fy) as [E F].
  { apply Rabs_le_inv in R', H. apply Rabs_lt. lra. }
  split; [exact F|]. rewrite E. exact R'.
Qed.

(** ** compensated summation *)
Definition kinv (k : nat) (S : R) (st : float * float) : Prop :=
  ffin (fst st) /\ ffin (snd st) /\ 0 <= fval (fst st) /\
  Rabs (fval (fst st) - S) <= INR k * (10 * u64) * S /\ Rabs (fval (snd st)) <= 5 * u64 * S.
Lemma not_nan x : ffin x -> PrimFloat.is_nan x = false.
Proof.
  intro F. rewrite <- isnan_spec. unfold f64_isnan.
  destruct (feqb_correct x x F F) as [|C]; [reflexivity|exfalso; apply C; reflexivity].
Qed.
Lemma kahan_step_inv k S st x : (k <= 24)%nat -> 0 <= S -> S <= INR k * cap -> fok x -> kinv k S st ->
  kinv (Datatypes.S k) (S + fval x) (kahan_step st x).
Proof.
  destruct st as [s c]. intros Hk S0 SC ((Fx & X0) & XC) (Fs & Fc & s0 & Es & Ec). cbn [fst snd] in *.
  assert (U : u64 = / 9007199254740992) by reflexivity.
  assert (K8 : 0 <= INR k <= 24) by (split; [apply pos_INR|apply (INR_le k 24), Hk]).
  assert (P : 0 < cap) by apply bpow_gt_0.
  assert (SC' : S <= 24 * cap) by (eapply Rle_trans; [exact SC|apply Rmult_le_compat_r; lra]).
  set (X := fval x) in *. set (W := S + X).
  assert (W9 : W <= 25 * cap) by (unfold W; lra).
  assert (KS : INR k * (10 * u64) * S <= 240 * u64 * S).
  { apply Rmult_le_compat_r; [exact S0|]. rewrite U. lra. }
  apply Rabs_le_inv in Es, Ec.
  unfold kahan_step. cbn [fst snd].
  (* y *)
  destruct (sub_step_err x c (2 * W) Fx Fc) as [Fy Ey]; [|lra|].
  { fold X. apply Rabs_le. unfold W. rewrite U in *. lra. }
  set (y := (x - c)%float) in *. fold X in Ey. apply Rabs_le_inv in Ey.
  (* t *)
  destruct (add_step s y (2 * W) Fs Fy) as [Ft Et]; [|lra|].
  { apply Rabs_le. unfold W in *. rewrite U in *. lra. }
  assert (T0 : 0 <= fval (s + y)%float).
  { destruct (fadd_correct s y Fs Fy) as [-> _].
    - pose proof (rnd_rel s y) as R. pose proof cap_big as B.
      assert (H : Rabs (fval s + fval y) <= 2 * W) by (apply Rabs_le; unfold W in *; rewrite U in *; lra).
      assert (R2 : u64 * Rabs (fval s + fval y) <= u64 * (2 * W)) by (apply Rmult_le_compat_l; [rewrite U; lra|exact H]).
      apply Rabs_lt. apply Rabs_le_inv in R, H. rewrite U in *. lra.
    - apply rnd_nonneg. 
      assert (YL : - (6 * u64 * S) <= fval y).
      { pose proof (rnd_rel_sub x c) as R. destruct (fsub_correct x c Fx Fc) as [E _].
        - pose proof cap_big as B. assert (H : Rabs (fval x - fval c) <= 2 * W) by (fold X; apply Rabs_le; unfold W in *; rewrite U in *; lra).
          assert (R2 : u64 * Rabs (fval x - fval c) <= u64 * (2 * W)) by (apply Rmult_le_compat_l; [rewrite U; lra|exact H]).
          apply Rabs_lt. apply Rabs_le_inv in R, H. rewrite U in *. lra.
        - fold y in E. rewrite E. clear E. fold X in R |- *.
          assert (A : Rabs (X - fval c) <= X + 5 * u64 * S) by (apply Rabs_le; lra).
          assert (A2 : u64 * Rabs (X - fval c) <= u64 * (X + 5 * u64 * S)) by (apply Rmult_le_compat_l; [rewrite U; lra|exact A]).
          apply Rabs_le_inv in R. rewrite U in *. lra. }
      rewrite U in *. lra. }
  set (t := (s + y)%float) in *. apply Rabs_le_inv in Et.
  (* d *)
  destruct (sub_step_err t s (2 * W) Ft Fs) as [Fd Ed]; [|lra|].
  { apply Rabs_le. unfold W in *. rewrite U in *. lra. }
  set (d := (t - s)%float) in *. apply Rabs_le_inv in Ed.
  destruct (sub_step_err d y (5 * u64 * W) Fd Fy) as [Fc' Ec']; [apply Rabs_le; lra|rewrite U; unfold W in *; lra|].
  set (c' := (d - y)%float) in *. apply Rabs_le_inv in Ec'.
  rewrite (not_nan c' Fc'). unfold kinv. cbn [fst snd].
  split; [exact Ft|]. split; [exact Fc'|]. split; [exact T0|]. split.
  - rewrite S_INR. apply Rabs_le.
    assert (M : INR k * (10 * u64) * S <= INR k * (10 * u64) * W).
    { apply Rmult_le_compat_l; [apply Rmult_le_pos; [lra|rewrite U; lra]|unfold W; lra]. }
    replace ((INR k + 1) * (10 * u64) * W) with (INR k * (10 * u64) * W + 10 * u64 * W) by ring.
    unfold W in *. rewrite U in *. lra.
  - apply Rabs_le. unfold W in *. rewrite U in *. lra.
Qed.
Lemma kahan_inv l : Forall fok l -> forall k S st, (k + length l <= 24)%nat -> 0 <= S -> S <= INR k * cap -> kinv k S st ->
  kinv (k + length l) (S + fsum l) (fold_left kahan_step l st).
Proof.
  induction 1 as [|x l Hx Hl IH]; intros k S st Hk S0 SC I; cbn [length fold_left] in *.
  - rewrite Nat.add_0_r. unfold fsum, Rsum. cbn [map fold_right]. rewrite Rplus_0_r. exact I.
  - rewrite Nat.add_succ_r. change (fsum (x :: l)) with (fval x + fsum l). rewrite <- Rplus_assoc.
    apply (IH (Datatypes.S k)); [lia|destruct Hx as ((_ & ?) & _); lra|rewrite S_INR; destruct Hx as (_ & ?); lra|].
    apply kahan_step_inv; assumption || lia.
Qed.

Lemma valid_fok l : Forall fok l -> valid l = l.
Proof.
  unfold valid. induction 1 as [|x l ((F & _) & _) _ IH]; [reflexivity|]. cbn [filter].
  change (n_isnan x) with (f64_isnan x). rewrite isnan_spec, (not_nan x F). cbn [negb]. f_equal. exact IH.
Qed.
Lemma Forall_moderate l : Forall moderate l -> Forall fok l.
Proof. apply Forall_impl. intro x. apply moderate_fok. Qed.

Lemma kahan_within : sums_within kahan.
Proof.
  intros l L M. apply Forall_moderate in M. unfold kahan. rewrite (valid_fok l M).
  assert (I0 : kinv 0 0 (0%float, 0%float)).
  { unfold kinv. cbn [fst snd INR]. change (fval 0%float) with 0. split; [exact ffin_zero|]. split; [exact ffin_zero|].
    split; [lra|]. rewrite Rminus_0_r, Rabs_R0. lra. }
  pose proof (kahan_inv l M 0 0 (0%float, 0%float) (Nat.le_trans _ _ 24 L ltac:(lia)) ltac:(lra) ltac:(cbn; lra) I0) as (F & _ & P & E & _).
  cbn [plus] in E. rewrite Rplus_0_l in E. split; [apply ffin_spec; exact F|]. split; [exact P|].
  eapply Rle_trans; [exact E|]. fold (fsum l). pose proof (fsum_cap l M) as [S0 _]. apply Rmult_le_compat_r; [exact S0|].
  assert (INR (length l) <= 8) by (apply (INR_le _ 8), L). unfold u64. lra.
Qed.

Lemma adds_left l : forall pre acc, adds pre acc -> adds (pre ++ l) (fold_left (fun a b => a + b)%float l acc).
Proof.
  induction l as [|x l IH]; intros pre acc H; [rewrite app_nil_r; exact H|]. cbn [fold_left].
  replace (pre ++ x :: l) with ((pre ++ [x]) ++ l) by (rewrite <- app_assoc; reflexivity).
  apply IH. exact (adds_two pre [x] (pre ++ [x]) acc x H (adds_one x) (Permutation_refl _)).
Qed.
Lemma nansum_within : sums_within nansum.
Proof.
  intros l L M. apply Forall_moderate in M. unfold nansum. rewrite (valid_fok l M).
  pose proof (adds_left l [0%float] 0%float (adds_one _)) as A. cbn [app] in A.
  destruct (adds_err _ _ A) as (F & Lo & Up); [cbn [length]; lia|constructor; [apply fok_n0|exact M]|].
  change (fsum (0%float :: l)) with (0 + fsum l) in Lo, Up. rewrite Rplus_0_l in Lo, Up.
  change (fold_left n_add l n0) with (fold_left (fun a b => a + b)%float l 0%float).
  set (x := fold_left _ l 0%float) in *. pose proof (fsum_cap l M) as [S0 _]. fold (fsum l).
  assert (N : 0 <= INR (length (0%float :: l)) <= 9) by (split; [apply pos_INR|apply (INR_le _ 9); cbn [length]; lia]).
  set (n := length (0%float :: l)) in *.
  destruct (pow_small n) as [P1 P2]; [unfold u64; lra|].
  assert (A1 : INR n * u64 <= 9 * u64) by (apply Rmult_le_compat_r; [unfold u64; lra|lra]).
  assert (L1 : fsum l * (1 - 9 * u64) <= fval x) by (eapply Rle_trans; [|exact Lo]; apply Rmult_le_compat_l; lra).
  assert (U1 : fval x <= fsum l * (1 + 18 * u64)) by (eapply Rle_trans; [exact Up|]; apply Rmult_le_compat_l; lra).
  split; [apply ffin_spec; exact F|]. split; [eapply Rle_trans; [|exact L1]; apply Rmult_le_pos; [exact S0|unfold u64; lra]|].
  unfold u64 in *. apply Rabs_le. lra.
Qed.

(** ** size of a bin *)
Lemma seq_window (p : nat -> bool) n a : (forall i, (i < n)%nat -> p i = true -> (a <= i < a + 8)%nat) ->
  (length (filter p (seq 0 n)) <= 8)%nat.
Proof.
  intro H. rewrite <- (seq_length 8 a). apply NoDup_incl_length; [apply NoDup_filter, seq_NoDup|].
  intros i Hi. apply filter_In in Hi. destruct Hi as [Hi Hp]. apply in_seq in Hi. apply in_seq. apply H; [lia|exact Hp].
Qed.
Lemma filter_combine_length {A B} (p : A -> bool) (xs : list A) : forall ys : list B, length xs = length ys ->
  length (filter (fun q => p (fst q)) (combine xs ys)) = length (filter p xs).
Proof.
  induction xs as [|x xs IH]; intros [|y ys] H; try discriminate; [reflexivity|]. cbn [combine filter fst]. injection H as H.
  destruct (p x); cbn [length]; rewrite IH by exact H; reflexivity.
Qed.
Lemma bin_small t0 L n (vals : list float) t : (9 <= L <= 11)%nat -> length vals = n ->
  (length (map snd (filter (fun p => bin5 (fst p) =? t)%Z (combine (grid t0 (sub_step L) n) vals))) <= 8)%nat.
Proof.
  intros HL E. rewrite map_length. rewrite (filter_combine_length (fun u => bin5 u =? t)%Z) by (rewrite grid_length; symmetry; exact E).
  destruct (sub_step_day L ltac:(lia)) as [_ Es]. set (f := sub_step L) in *.
  unfold grid. rewrite filter_map_comm, map_length.
  apply seq_window with (a := Z.to_nat ((t - t0 + f - 1) / f)). intros i Hi Hp. apply Z.eqb_eq in Hp.
  unfold bin5 in Hp. set (m := (5 * us_minute)%Z) in *. assert (Em : m = 300000000%Z) by reflexivity.
  pose proof (Z.div_mod (t0 + Z.of_nat i * f) m ltac:(lia)) as D. pose proof (Z.mod_pos_bound (t0 + Z.of_nat i * f) m ltac:(lia)) as B.
  assert (R : (t <= t0 + Z.of_nat i * f < t + m)%Z) by lia.
  pose proof (Z.div_mod (t - t0 + f - 1) f ltac:(lia)) as D2. pose proof (Z.mod_pos_bound (t - t0 + f - 1) f ltac:(lia)) as B2.
  set (q := ((t - t0 + f - 1) / f)%Z) in *.
  assert (Q1 : (q <= Z.of_nat i)%Z) by nia. assert (Q2 : (Z.of_nat i < q + 8)%Z) by nia. lia.
Qed.

(** ** the levels *)
Lemma eta64_small' : 100000 * eta64 <= 1 / 10 ^ 300.
Proof.
  unfold eta64. change (bpow radix2 (-1074)) with (/ IZR (Z.pow_pos 2 1074)).
  assert (P : 0 < IZR (Z.pow_pos 2 1074)) by (apply IZR_lt; reflexivity).
  assert (Q : (0 < 10 ^ 300)%R) by (apply pow_lt; lra).
  apply Rmult_le_reg_r with (IZR (Z.pow_pos 2 1074) * 10 ^ 300); [apply Rmult_lt_0_compat; assumption|].
  replace (100000 * (/ 2 * / IZR (Z.pow_pos 2 1074)) * (IZR (Z.pow_pos 2 1074) * 10 ^ 300)) with (50000 * 10 ^ 300) by (field; lra).
  replace (1 / 10 ^ 300 * (IZR (Z.pow_pos 2 1074) * 10 ^ 300)) with (IZR (Z.pow_pos 2 1074)) by (field; lra).
  change 10 with (IZR 10). rewrite pow_IZR, <- mult_IZR. apply IZR_le. vm_compute. discriminate.
Qed.
Lemma lvl_bound k : (k <= 11)%nat -> fst (lvl_err k) <= 50 * u64 /\ snd (lvl_err k) <= 5000.
Proof.
  intro H. do 12 (destruct k as [|k]; [cbn [lvl_err fst snd]; unfold u64; lra|]). lia.
Qed.
