(** 'mean_course_mean' in binary64. *)
From Coq Require Import String ZArith List Bool Lia Reals Lra Floats.
From Flocq Require Import Core.
From Verif Require Import Py Num Cal Series UtilModel UtilModel2 Frame TempModel SpecBase SpecUtil SpecTemp TimeProofs IndexProofs DaysProofs
  CourseProofs TempProofs TempCourse F64 CascadeFloat CascadeRound SpecFiveRound FiveRound SpecCourseRound CourseModel CourseRound
  CourseMeanModel SpecCourseMean ErrCalc.
Import ListNotations.
Open Scope Z_scope.
Notation float := PrimFloat.float (only parsing).

(** ** shape, for any kind of number *)
Section Shape.
  Context {T : Type} {N : Num T}.
  Lemma mean_shape mean e (d : dframe T) d0 tmin tmax temp c (f : Z -> nat -> T) : temp <> [] ->
    length tmin = length temp -> length tmax = length temp -> f_index d = daily_index d0 (length temp) ->
    assoc "tmin" (f_cols d) = Some tmin -> assoc "tmax" (f_cols d) = Some tmax -> assoc "temp" (f_cols d) = Some temp ->
    (forall i h, (i < length temp)%nat -> (h < 24)%nat -> course_value (zero_mean_with mean c) (stamp (d0 + Z.of_nat i) h) = Ok (f (d0 + Z.of_nat i) h)) ->
    temp_course_mean mean e d c
    = Ok (map (fun t => (t, (at_day d0 temp n_nan t + (at_day d0 tmax n_nan t - at_day d0 tmin n_nan t) * f (date_of t) (Z.to_nat (hour_of t)))%num))
              (hours_index d0 (length temp))).
  Proof.
    intros NE L1 L2 FI C1 C2 C3 HC. unfold temp_course_mean. rewrite FI.
    assert (HI : hourly_index e (daily_index d0 (length temp)) = Ok (hours_index d0 (length temp))).
    { destruct temp; [contradiction|]. apply hourly_index_daily. }
    rewrite HI. cbn [bind]. rewrite daily_has_dup. unfold daily_index at 1. rewrite grid_increasing by (unfold us_day; lia). cbn [orb negb].
    assert (CA : mapM (course_value (zero_mean_with mean c)) (hours_index d0 (length temp))
                 = Ok (map (fun t => f (date_of t) (Z.to_nat (hour_of t))) (hours_index d0 (length temp)))).
    { apply mapM_Ok. intros t Ht. apply in_hours in Ht as (i & h & Hi & Hh & ->).
      rewrite HC, stamp_hour, stamp_date, Nat2Z.id by assumption. reflexivity. }
    unfold fcol. rewrite C1, C2, C3, FI. cbn [bind]. rewrite CA. cbn [bind]. f_equal.
    fold (daily d0 temp). replace (combine (daily_index d0 (length temp)) tmin) with (daily d0 tmin) by (unfold daily; rewrite L1; reflexivity).
    replace (combine (daily_index d0 (length temp)) tmax) with (daily d0 tmax) by (unfold daily; rewrite L2; reflexivity).
    pose proof (ffill_limit_daily d0 tmin) as E1. pose proof (ffill_limit_daily d0 tmax) as E2. pose proof (ffill_limit_daily d0 temp) as E3.
    rewrite L1 in E1. rewrite L2 in E2. rewrite E1, E2, E3. rewrite !combine_maps, map_map. reflexivity.
  Qed.
  Lemma zero_mean_value mean (c : course T) col t v : lookup (month_of t) c = Some col -> lookup (hour_of t) col = Some v ->
    course_value (zero_mean_with mean c) t = Ok (v - mean (map snd col))%num.
  Proof.
    intros HC HV. unfold course_value, zero_mean_with.
    assert (G : forall (X Y : Type) (g : X -> Y) k (l : list (Z * X)), lookup k (map (fun p => (fst p, g (snd p))) l) = option_map g (lookup k l)).
    { intros X Y g k l. induction l as [|[k' x] l IH]; [reflexivity|]. cbn [map lookup fst snd]. destruct (k' =? k); [reflexivity|exact IH]. }
    rewrite (G _ _ (fun cl => let m := mean (map snd cl) in map (fun q => (fst q, (snd q - m)%num)) cl)), HC. cbn [option_map].
    cbv zeta. rewrite (G _ _ (fun v => (v - mean (map snd col))%num)), HV. reflexivity.
  Qed.
End Shape.

(** ** one value *)
Open Scope R_scope.
Section Value.
  Variables lo hi m mh : float.
  Variable mu : R.
  Hypothesis Tl : tame lo.
  Hypothesis Th : tame hi.
  Hypothesis Tm : tame m.
  Hypothesis LE : (lo <=? hi)%float = true.
  Hypothesis Mu : 0 <= mu <= 1.
  Hypothesis Fm : ffin mh.
  Hypothesis Em : Rabs (fval mh - mu) <= 3 / 10 ^ 14 * mu + 1 / 10 ^ 300.
  Definition mean_w (v : float) : float := (m + (hi - lo) * (v - mh))%float.
  Let D := fval hi - fval lo.
  Lemma tiny : 0 < 1 / 10 ^ 300 <= 1 / 10 ^ 20.
  Proof. split; [apply Rdiv_lt_0_compat; [lra|apply pow_lt; lra]|]. unfold Rdiv. apply Rmult_le_compat_l; [lra|]. apply Rinv_le_contravar; [apply pow_lt; lra|]. apply Rle_pow; [lra|lia]. Qed.
  Lemma mean_facts v : in_unit v -> let d := (hi - lo)%float in let z := (v - mh)%float in let p := (d * z)%float in
    ffin d /\ 0 <= fval d /\ ffin z /\ fval z = rnd (fval v - fval mh) /\
    ffin p /\ fval p = rnd (fval d * fval z) /\ ffin (mean_w v) /\ fval (mean_w v) = rnd (fval m + fval p) /\
    Rabs (fval (mean_w v) - (fval m + D * (fval v - mu))) <= mean_tolerance lo hi m.
  Proof.
    intro Hv. destruct (unit_spec v Hv) as [Fv Uv]. destruct (tame_spec lo Tl) as [Fl Bl]. destruct (tame_spec hi Th) as [Fh Bh].
    destruct (tame_spec m Tm) as [FM BM]. pose proof LE as LE'. apply (leb_true lo hi Fl Fh) in LE'.
    destruct (diff_spec lo hi Fl Fh Bl Bh LE') as (Fd & Ed & D0 & Dr). set (d := (hi - lo)%float) in *. intro d'. subst d'. intro z.
    assert (U : u64 = / 9007199254740992) by reflexivity. pose proof tiny as TN. pose proof eta64_small as ES. pose proof eta64_pos as E0.
    pose proof cap_1 as C1. apply Rabs_le_inv in Em, Dr, Bl, Bh.
    assert (DD : 0 <= D <= 2 * cap) by (unfold D; lra). fold D in Dr.
    assert (UD : u64 * D <= 1 / 10 ^ 15 * D) by (apply Rmult_le_compat_r; [lra|rewrite U; lra]).
    assert (UD0 : 0 <= u64 * D) by (apply Rmult_le_pos; [rewrite U|]; lra).
    (* the departure from the mean *)
    assert (MH : - (1 / 100) <= fval mh <= 1 + 1 / 100) by lra.
    pose proof (rnd_rel_sub v mh) as RZ.
    assert (AZ : Rabs (fval v - fval mh) <= 101 / 100) by (apply Rabs_le; lra).
    destruct (fsub_correct v mh Fv Fm) as [EZ FZ]; [apply rnd_in_range; lra|]. fold z in EZ, FZ.
    assert (ZE : Rabs (fval z - (fval v - mu)) <= 302 / 10 ^ 16).
    { rewrite EZ. apply Rabs_le_inv in RZ. assert (u64 * Rabs (fval v - fval mh) <= u64 * (101 / 100)) by (apply Rmult_le_compat_l; [rewrite U|]; lra).
      apply Rabs_le. rewrite U in *. lra. }
    assert (ZB : Rabs (fval z) <= 102 / 100).
    { apply Rabs_le_inv in ZE. apply Rabs_le. lra. }
    (* the product *)
    assert (DB : fval d <= (1 + 1 / 10 ^ 15) * D) by lra.
    assert (DZ : Rabs (fval d * fval z) <= 103 / 100 * D).
    { rewrite Rabs_mult, (Rabs_pos_eq (fval d)) by exact D0. apply Rle_trans with ((1 + 1 / 10 ^ 15) * D * (102 / 100)); [apply Rmult_le_compat; try apply Rabs_pos; lra|lra]. }
    destruct (fmul_correct d z Fd FZ) as [EP FP]; [apply rnd_in_range; lra|]. intro p. fold p in EP, FP.
    pose proof (rnd_err (fval d * fval z)) as RP. rewrite <- EP in RP.
    assert (PE : Rabs (fval p - D * (fval v - mu)) <= 310 / 10 ^ 16 * D + eta64).
    { replace (fval p - D * (fval v - mu)) with ((fval p - fval d * fval z) + ((fval d - D) * fval z + D * (fval z - (fval v - mu)))) by ring.
      eapply Rle_trans; [apply Rabs_triang|]. assert (X1 : u64 * Rabs (fval d * fval z) <= u64 * (103 / 100 * D)) by (apply Rmult_le_compat_l; [rewrite U|]; lra).
      assert (X2 : Rabs ((fval d - D) * fval z + D * (fval z - (fval v - mu))) <= u64 * D * (102 / 100) + D * (302 / 10 ^ 16)).
      { eapply Rle_trans; [apply Rabs_triang|]. rewrite !Rabs_mult, (Rabs_pos_eq D) by lra. apply Rplus_le_compat.
        - apply Rmult_le_compat; try apply Rabs_pos; [apply Rabs_le; lra|exact ZB].
        - apply Rmult_le_compat_l; lra. }
      rewrite U in *. lra. }
    assert (PB : Rabs (fval p) <= 104 / 100 * D + eta64).
    { replace (fval p) with ((fval p - fval d * fval z) + fval d * fval z) by ring. eapply Rle_trans; [apply Rabs_triang|].
      assert (X1 : u64 * Rabs (fval d * fval z) <= u64 * (103 / 100 * D)) by (apply Rmult_le_compat_l; [rewrite U|]; lra). rewrite U in *. lra. }
    (* the sum *)
    assert (SB : Rabs (fval m + fval p) <= Rabs (fval m) + (104 / 100 * D + eta64)) by (eapply Rle_trans; [apply Rabs_triang|lra]).
    assert (ET : eta64 <= 1) by lra.
    destruct (fadd_correct m p FM FP) as [EW FW]; [apply rnd_in_range; lra|].
    pose proof (rnd_rel m p) as RW.
    repeat (split; [first [exact Fd|exact D0|exact FZ|exact EZ|exact FP|exact EP|exact FW|exact EW]|]).
    unfold mean_w. fold d. fold z. fold p. rewrite EW. unfold mean_tolerance. fold D.
    replace (rnd (fval m + fval p) - (fval m + D * (fval v - mu))) with ((rnd (fval m + fval p) - (fval m + fval p)) + (fval p - D * (fval v - mu))) by ring.
    eapply Rle_trans; [apply Rabs_triang|].
    assert (X3 : u64 * Rabs (fval m + fval p) <= u64 * (Rabs (fval m) + (104 / 100 * D + eta64))) by (apply Rmult_le_compat_l; [rewrite U|]; lra).
    pose proof (Rabs_pos (fval m)). rewrite U in *. lra.
  Qed.
  Lemma mean_mono v w : in_unit v -> in_unit w -> (v <=? w)%float = true -> (mean_w v <=? mean_w w)%float = true.
  Proof.
    intros Hv Hw L. destruct (mean_facts v Hv) as (Fd & D0 & Fz & Ez & Fp & Ep & Fa & Ea & _). destruct (mean_facts w Hw) as (_ & _ & Fz' & Ez' & Fp' & Ep' & Fb & Eb & _).
    destruct (unit_spec v Hv) as [Fv _]. destruct (unit_spec w Hw) as [Fw _]. apply (leb_true v w Fv Fw) in L.
    apply (leb_true _ _ Fa Fb). rewrite Ea, Eb. apply rnd_le, Rplus_le_compat_l. rewrite Ep, Ep'. apply rnd_le, Rmult_le_compat_l; [exact D0|].
    rewrite Ez, Ez'. apply rnd_le. lra.
  Qed.
  Lemma mean_flat v : in_unit v -> (lo =? hi)%float = true -> (mean_w v =? m)%float = true.
  Proof.
    intros Hv L. destruct (mean_facts v Hv) as (Fd & D0 & Fz & Ez & Fp & Ep & Fa & Ea & _).
    destruct (tame_spec lo Tl) as [Fl Bl]. destruct (tame_spec hi Th) as [Fh Bh]. destruct (tame_spec m Tm) as [FM BM].
    pose proof LE as LE'. apply (leb_true lo hi Fl Fh) in LE'. destruct (diff_spec lo hi Fl Fh Bl Bh LE') as (_ & Ed & _ & _).
    apply (eqb_true lo hi Fl Fh) in L. apply (eqb_true _ _ Fa FM). rewrite Ea, Ep, Ed, L, Rminus_diag_eq, rnd_0, Rmult_0_l, rnd_0, Rplus_0_r by reflexivity.
    apply rnd_fval.
  Qed.
End Value.
