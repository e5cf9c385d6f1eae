(** Mean courses in binary64. *)
From Coq Require Import String ZArith List Bool Lia Reals Lra Floats.
From Flocq Require Import Core.
From Verif Require Import Py Num Cal Series UtilModel UtilModel2 Frame TempModel SpecBase SpecUtil SpecTemp TimeProofs IndexProofs DaysProofs
  CourseProofs TempProofs TempCourse F64 CascadeFloat CascadeRound SpecFiveRound FiveRound SpecCourseRound CourseModel.
Import ListNotations.
Open Scope Z_scope.
Notation float := PrimFloat.float (only parsing).

Lemma mean_course_with_nanmean {T} {N : Num T} (s : series T) norm : mean_course_with nanmean s norm = mean_course s norm.
Proof. reflexivity. Qed.
Lemma course_model_agrees e (d : dframe xr) mmt modn md c st :
  disaggregate_temperature e d "mean_course_min_max" mmt modn md (Some c) st = temp_course_min_max e d c.
Proof.
  unfold disaggregate_temperature, temp_course_min_max. cbn [String.eqb Ascii.eqb Bool.eqb orb negb].
  destruct (hourly_index e (f_index d)); reflexivity.
Qed.

(** ** shape, for any kind of number *)
Section Shape.
  Context {T : Type} {N : Num T}.
  Lemma ffill_limit_daily d0 (l : list T) :
    ffill_limit 23 (daily d0 l) (hours_index d0 (length l)) = map (fun t => (t, at_day d0 l n_nan t)) (hours_index d0 (length l)).
  Proof.
    unfold ffill_limit. apply map_ext_in. intros t Ht. f_equal.
    apply in_hours in Ht as (i & h & Hi & Hh & ->). rewrite at_day_stamp by exact Hh. rewrite self_rows.
    rewrite last_le_daily by (rewrite ?daily_length; assumption).
    assert (E : nth_error (daily d0 l) i = Some ((d0 + Z.of_nat i) * us_day, nth i l n_nan)).
    { clear - Hi. revert d0 i Hi. induction l as [|x l IH]; intros d0 [|i] Hi; cbn in Hi; try lia.
      - rewrite daily_cons. cbn. do 2 f_equal. f_equal. lia.
      - rewrite daily_cons. cbn [nth_error]. rewrite IH by lia. cbn [nth]. do 3 f_equal. lia. }
    rewrite E. pose proof (fill_count d0 (length l) i h Hi Hh) as F. apply Z.leb_le in F. rewrite F. reflexivity.
  Qed.
  Lemma min_max_shape e (d : dframe T) d0 tmin tmax c (f : Z -> nat -> T) : tmin <> [] -> length tmax = length tmin ->
    f_index d = daily_index d0 (length tmin) -> assoc "tmin" (f_cols d) = Some tmin -> assoc "tmax" (f_cols d) = Some tmax ->
    (forall i h, (i < length tmin)%nat -> (h < 24)%nat -> course_value c (stamp (d0 + Z.of_nat i) h) = Ok (f (d0 + Z.of_nat i) h)) ->
    temp_course_min_max e d c
    = Ok (map (fun t => (t, (f (date_of t) (Z.to_nat (hour_of t)) * (at_day d0 tmax n_nan t - at_day d0 tmin n_nan t) + at_day d0 tmin n_nan t)%num))
              (hours_index d0 (length tmin))).
  Proof.
    intros NE L FI C1 C2 HC. unfold temp_course_min_max. rewrite FI.
    assert (HI : hourly_index e (daily_index d0 (length tmin)) = Ok (hours_index d0 (length tmin))).
    { destruct tmin; [contradiction|]. apply hourly_index_daily. }
    rewrite HI. cbn [bind]. rewrite daily_has_dup. unfold daily_index at 1. rewrite grid_increasing by (unfold us_day; lia). cbn [orb negb].
    assert (CA : mapM (course_value c) (hours_index d0 (length tmin))
                 = Ok (map (fun t => f (date_of t) (Z.to_nat (hour_of t))) (hours_index d0 (length tmin)))).
    { apply mapM_Ok. intros t Ht. apply in_hours in Ht as (i & h & Hi & Hh & ->).
      rewrite HC, stamp_hour, stamp_date, Nat2Z.id by assumption. reflexivity. }
    rewrite CA. cbn [bind]. unfold fcol. rewrite C1, C2, FI. cbn [bind]. f_equal.
    fold (daily d0 tmin). replace (combine (daily_index d0 (length tmin)) tmax) with (daily d0 tmax) by (unfold daily; rewrite L; reflexivity).
    pose proof (ffill_limit_daily d0 tmin) as E1. pose proof (ffill_limit_daily d0 tmax) as E2. rewrite L in E2.
    rewrite E1, E2. rewrite !combine_maps, map_map. reflexivity.
  Qed.
End Shape.

(** ** one value *)
Open Scope R_scope.
Lemma tame_spec x : tame x -> ffin x /\ Rabs (fval x) <= cap.
Proof.
  unfold tame. rewrite andb_true_iff. intros [A B].
  assert (F : ffin x) by (apply (between_finite (-0x1p900)%float x 0x1p900%float); (reflexivity || assumption)).
  assert (E : fval 0x1p900%float = cap) by (unfold fval, cap; vm_compute; lra).
  assert (E' : fval (-0x1p900)%float = - cap) by (unfold fval, cap; vm_compute; lra).
  destruct (fleb_correct (-0x1p900)%float x eq_refl F) as [A'|]; [|discriminate].
  destruct (fleb_correct x 0x1p900%float F eq_refl) as [B'|]; [|discriminate].
  split; [exact F|]. apply Rabs_le. lra.
Qed.
Lemma unit_spec x : in_unit x -> ffin x /\ 0 <= fval x <= 1.
Proof.
  unfold in_unit. rewrite andb_true_iff. intros [A B]. apply unit_b_spec. unfold unit_b.
  assert (F : ffin x) by (apply (between_finite 0%float x 1%float); (reflexivity || assumption)).
  apply ffin_spec in F. rewrite F. change (PrimFloat.leb n0 x) with (0 <=? x)%float. change (PrimFloat.leb x n1) with (x <=? 1)%float. rewrite A, B. reflexivity.
Qed.
Lemma leb_true x y : ffin x -> ffin y -> (x <=? y)%float = true <-> fval x <= fval y.
Proof. intros Fx Fy. destruct (fleb_correct x y Fx Fy); split; (intro; try discriminate; try reflexivity; try assumption; try contradiction). Qed.
Lemma eqb_true x y : ffin x -> ffin y -> (x =? y)%float = true <-> fval x = fval y.
Proof. intros Fx Fy. destruct (feqb_correct x y Fx Fy); split; (intro; try discriminate; try reflexivity; try assumption; try contradiction). Qed.

(** difference of two tame doubles in order *)
Lemma diff_spec lo hi : ffin lo -> ffin hi -> Rabs (fval lo) <= cap -> Rabs (fval hi) <= cap -> fval lo <= fval hi ->
  ffin (hi - lo)%float /\ fval (hi - lo)%float = rnd (fval hi - fval lo) /\ 0 <= fval (hi - lo)%float /\
  Rabs (fval (hi - lo)%float - (fval hi - fval lo)) <= u64 * (fval hi - fval lo).
Proof.
  intros Fl Fh Bl Bh LE. assert (P : 0 < cap) by apply bpow_gt_0. pose proof cap_big as B. pose proof u64_pos as U.
  pose proof (rnd_rel_sub hi lo) as R. rewrite (Rabs_pos_eq (fval hi - fval lo)) in R by lra.
  apply Rabs_le_inv in Bl, Bh.
  assert (UM : u64 * (fval hi - fval lo) <= fval hi - fval lo) by (rewrite <- (Rmult_1_l (fval hi - fval lo)) at 2; apply Rmult_le_compat_r; lra).
  destruct (fsub_correct hi lo Fh Fl) as [E F]. { apply Rabs_le_inv in R. apply Rabs_lt. lra. }
  split; [exact F|]. split; [exact E|]. rewrite E. split; [apply rnd_nonneg; lra|exact R].
Qed.

Section Value.
  Variables lo hi : float.
  Hypothesis Tl : tame lo.
  Hypothesis Th : tame hi.
  Hypothesis LE : (lo <=? hi)%float = true.
  Definition course_w (v : float) : float := (v * (hi - lo) + lo)%float.
  Let B := Rmax (Rabs (fval lo)) (Rabs (fval hi)).
  Lemma value_facts v : in_unit v -> let p := (v * (hi - lo))%float in
    fnn p /\ ffin (course_w v) /\ fval (course_w v) = rnd (fval p + fval lo) /\
    Rabs (fval p - fval v * (fval hi - fval lo)) <= 5 * u64 * B + eta64 /\
    Rabs (fval (course_w v) - (fval p + fval lo)) <= u64 * (4 * B).
  Proof.
    intro Hv. destruct (unit_spec v Hv) as [Fv Uv]. destruct (tame_spec lo Tl) as [Fl Bl]. destruct (tame_spec hi Th) as [Fh Bh].
    apply (leb_true lo hi Fl Fh) in LE. destruct (diff_spec lo hi Fl Fh Bl Bh LE) as (Fd & Ed & D0 & Dr).
    assert (B1 : Rabs (fval lo) <= B) by apply Rmax_l. assert (B2 : Rabs (fval hi) <= B) by apply Rmax_r.
    assert (BC : B <= cap) by (apply Rmax_lub; assumption).
    assert (P : 0 < cap) by apply bpow_gt_0. assert (U : u64 = / 9007199254740992) by reflexivity.
    assert (B0 : 0 <= B) by (eapply Rle_trans; [apply Rabs_pos|exact B1]).
    set (d := (hi - lo)%float) in *. intro p.
    destruct (fmul_unit v d Fv Uv (conj Fd D0)) as [Fp Pp]. pose proof (fmul_err v d Fv Uv (conj Fd D0)) as Me. fold p in Fp, Pp, Me.
    apply Rabs_le_inv in B1, B2, Dr, Me.
    assert (DB : fval d <= 2 * B * (1 + u64)).
    { assert (u64 * (fval hi - fval lo) <= u64 * (2 * B)) by (apply Rmult_le_compat_l; [rewrite U; lra|lra]). lra. }
    assert (VD : 0 <= fval v * fval d <= 2 * B * (1 + u64)).
    { split; [apply Rmult_le_pos; lra|]. apply Rle_trans with (1 * fval d); [apply Rmult_le_compat_r; lra|lra]. }
    assert (VE : - (u64 * (2 * B)) <= fval v * fval d - fval v * (fval hi - fval lo) <= u64 * (2 * B)).
    { replace (fval v * fval d - fval v * (fval hi - fval lo)) with (fval v * (fval d - (fval hi - fval lo))) by ring.
      assert (X : - (u64 * (2 * B)) <= fval d - (fval hi - fval lo) <= u64 * (2 * B)).
      { assert (u64 * (fval hi - fval lo) <= u64 * (2 * B)) by (apply Rmult_le_compat_l; [rewrite U; lra|lra]). lra. }
      assert (Y : 0 <= u64 * (2 * B)) by (apply Rmult_le_pos; [rewrite U; lra|lra]).
      set (q := fval d - (fval hi - fval lo)) in *. set (r := u64 * (2 * B)) in *. split; nra. }
    destruct Fp as [Fp P0].
    destruct (add_step p lo (4 * B) Fp Fl) as [Fw Ew]; [apply Rabs_le; rewrite U in *; lra|lra|].
    split; [split; assumption|]. split; [exact Fw|]. split; [|split; [|exact Ew]].
    - apply fadd_correct; [exact Fp|exact Fl|]. pose proof cap_big. pose proof (rnd_rel p lo) as R.
      assert (AB : Rabs (fval p + fval lo) <= 4 * B) by (apply Rabs_le; rewrite U in *; lra).
      assert (R2 : u64 * Rabs (fval p + fval lo) <= u64 * (4 * B)) by (apply Rmult_le_compat_l; [rewrite U; lra|exact AB]).
      apply Rabs_le_inv in R, AB. apply Rabs_lt. rewrite U in *. lra.
    - apply Rabs_le. rewrite U in *. lra.
  Qed.
  Lemma value_follows v : in_unit v -> follows lo hi v (course_w v).
  Proof.
    intro Hv. destruct (value_facts v Hv) as ((Fp & P0) & Fw & Ew & Ep & Er). set (p := (v * (hi - lo))%float) in *.
    destruct (tame_spec lo Tl) as [Fl _]. pose proof (unit_spec v Hv) as [Fv Uv].
    split; [apply ffin_spec; exact Fw|]. split; [|split].
    - apply (leb_true lo _ Fl Fw). rewrite Ew. apply rnd_ge_fval. lra.
    - intro Z. apply (eqb_true v 0%float Fv ffin_zero) in Z. change (fval 0%float) with 0 in Z.
      apply (eqb_true _ lo Fw Fl). rewrite Ew.
      assert (Pz : fval p = 0).
      { destruct (tame_spec hi Th) as [Fh Bh]. destruct (tame_spec lo Tl) as [_ Bl]. pose proof LE as LE'. apply (leb_true lo hi Fl Fh) in LE'.
        destruct (diff_spec lo hi Fl Fh Bl Bh LE') as (Fd & _ & _ & _).
        destruct (fmul_correct v (hi - lo)%float Fv Fd) as [E _]; rewrite Z, Rmult_0_l, rnd_0 in *; [rewrite Rabs_R0; apply bpow_gt_0|exact E]. }
      rewrite Pz, Rplus_0_l. apply rnd_fval.
    - fold B. pose proof eta64_small as ES. pose proof eta64_pos as E0.
      assert (B0 : 0 <= B) by (eapply Rle_trans; [apply Rabs_pos|apply Rmax_l]).
      apply Rabs_le_inv in Ep, Er. apply Rabs_le. unfold u64 in *. lra.
  Qed.
  Lemma value_mono v w : in_unit v -> in_unit w -> (v <=? w)%float = true -> (course_w v <=? course_w w)%float = true.
  Proof.
    intros Hv Hw L. destruct (value_facts v Hv) as ((Fp & P0) & Fa & Ea & _). destruct (value_facts w Hw) as ((Fq & Q0) & Fb & Eb & _).
    destruct (unit_spec v Hv) as [Fv Uv]. destruct (unit_spec w Hw) as [Fw Uw]. apply (leb_true v w Fv Fw) in L.
    apply (leb_true _ _ Fa Fb). rewrite Ea, Eb. apply rnd_le. apply Rplus_le_compat_r.
    destruct (tame_spec lo Tl) as [Fl Bl]. destruct (tame_spec hi Th) as [Fh Bh]. pose proof LE as LE'. apply (leb_true lo hi Fl Fh) in LE'.
    destruct (diff_spec lo hi Fl Fh Bl Bh LE') as (Fd & _ & D0 & _). set (d := (hi - lo)%float) in *.
    assert (M : forall x, ffin x -> 0 <= fval x <= 1 -> fval (x * d)%float = rnd (fval x * fval d)).
    { intros x Fx Ux. apply fmul_correct; [exact Fx|exact Fd|]. apply (abs_small _ d); [apply Rmult_le_pos; lra|].
      rewrite <- (Rmult_1_l (fval d)) at 2. apply Rmult_le_compat_r; lra. }
    rewrite (M v Fv Uv), (M w Fw Uw). apply rnd_le. apply Rmult_le_compat_r; assumption.
  Qed.
End Value.

(** ** a scaled column *)
Lemma nanmin_float (l : list float) : l <> [] -> Forall ffin l -> In (nanmin l) l /\ forall y, In y l -> fval (nanmin l) <= fval y.
Proof.
  intros NE F. unfold nanmin.
  assert (V : valid l = l).
  { unfold valid. clear NE. induction F as [|x l Fx _ IH]; [reflexivity|]. cbn [filter]. change (n_isnan x) with (f64_isnan x).
    rewrite isnan_spec, (not_nan x Fx). cbn [negb]. f_equal. exact IH. }
  rewrite V. destruct F as [|a l Fa F]; [contradiction|]. clear V NE.
  assert (G : forall l a, ffin a -> Forall ffin l -> In (fold_left nmin l a) (a :: l) /\ forall y, In y (a :: l) -> fval (fold_left nmin l a) <= fval y).
  { clear. induction l as [|b l IH]; intros a Fa F; cbn [fold_left].
    - split; [left; reflexivity|]. intros y [<-|[]]. lra.
    - inversion F as [|? ? Fb Fl]; subst. unfold nmin at 2 4. change (n_ltb b a) with (b <? a)%float. destruct (fltb_correct b a Fb Fa) as [L|L].
      + destruct (IH b Fb Fl) as [I M]. split; [right; exact I|]. intros y [<-|Hy]; [|apply M, Hy]. pose proof (M b (or_introl eq_refl)). lra.
      + destruct (IH a Fa Fl) as [I M]. split; [destruct I as [I|I]; [left; exact I|right; right; exact I]|].
        intros y [<-|[<-|Hy]]; [apply M; left; reflexivity| |apply M; right; exact Hy]. pose proof (M a (or_introl eq_refl)). lra. }
  apply G; assumption.
Qed.
Lemma nanmax_float (l : list float) : l <> [] -> Forall ffin l -> In (nanmax l) l /\ forall y, In y l -> fval y <= fval (nanmax l).
Proof.
  intros NE F. unfold nanmax.
  assert (V : valid l = l).
  { unfold valid. clear NE. induction F as [|x l Fx _ IH]; [reflexivity|]. cbn [filter]. change (n_isnan x) with (f64_isnan x).
    rewrite isnan_spec, (not_nan x Fx). cbn [negb]. f_equal. exact IH. }
  rewrite V. destruct F as [|a l Fa F]; [contradiction|]. clear V NE.
  assert (G : forall l a, ffin a -> Forall ffin l -> In (fold_left nmax l a) (a :: l) /\ forall y, In y (a :: l) -> fval y <= fval (fold_left nmax l a)).
  { clear. induction l as [|b l IH]; intros a Fa F; cbn [fold_left].
    - split; [left; reflexivity|]. intros y [<-|[]]. lra.
    - inversion F as [|? ? Fb Fl]; subst. unfold nmax at 2 4. change (n_ltb a b) with (a <? b)%float. destruct (fltb_correct a b Fa Fb) as [L|L].
      + destruct (IH b Fb Fl) as [I M]. split; [right; exact I|]. intros y [<-|Hy]; [|apply M, Hy]. pose proof (M b (or_introl eq_refl)). lra.
      + destruct (IH a Fa Fl) as [I M]. split; [destruct I as [I|I]; [left; exact I|right; right; exact I]|].
        intros y [<-|[<-|Hy]]; [apply M; left; reflexivity| |apply M; right; exact Hy]. pose proof (M a (or_introl eq_refl)). lra. }
  apply G; assumption.
Qed.

Lemma ratio_spec a b : ffin a -> ffin b -> 0 <= fval a <= fval b -> 0 < fval b ->
  fval (a / b)%float = rnd (fval a / fval b) /\ ffin (a / b)%float /\ 0 <= fval a / fval b <= 1.
Proof.
  intros Fa Fb H P. assert (Q : 0 <= fval a / fval b <= 1).
  { split; [apply Rmult_le_pos; [lra|left; apply Rinv_0_lt_compat; exact P]|]. apply Rmult_le_reg_r with (fval b); [exact P|].
    unfold Rdiv. rewrite Rmult_assoc, Rinv_l by lra. lra. }
  destruct (fdiv_correct a b Fa) as [E F]; [lra| |split; [exact E|split; [exact F|exact Q]]].
  apply (abs_small _ n1); rewrite ?fval_one; apply Q.
Qed.

Lemma normalise_scaled (c : list (Z * float)) : Forall (fun p => tame (snd p)) c ->
  (exists p q, In p c /\ In q c /\ (snd p <? snd q)%float = true) -> scaled c (normalise c).
Proof.
  intros HT (p0 & q0 & Hp & Hq & Lt).
  assert (FF : Forall ffin (map snd c)) by (rewrite Forall_map; eapply Forall_impl; [|exact HT]; intros a Ha; apply (tame_spec _ Ha)).
  assert (NE : map snd c <> []) by (destruct c; [destruct Hp|discriminate]).
  destruct (nanmin_float (map snd c) NE FF) as [Imin Lmin]. destruct (nanmax_float (map snd c) NE FF) as [Imax Lmax].
  unfold normalise. set (lo := nanmin (map snd c)) in *. set (hi := nanmax (map snd c)) in *.
  assert (TA : forall x, In x (map snd c) -> ffin x /\ Rabs (fval x) <= cap).
  { intros x Hx. apply in_map_iff in Hx. destruct Hx as (q & <- & Hx). rewrite Forall_forall in HT. apply tame_spec, HT, Hx. }
  destruct (TA lo Imin) as [Fl Bl]. destruct (TA hi Imax) as [Fh Bh].
  assert (LH : fval lo < fval hi).
  { destruct (TA _ (in_map snd _ _ Hp)) as [F1 _]. destruct (TA _ (in_map snd _ _ Hq)) as [F2 _].
    destruct (fltb_correct _ _ F1 F2) as [L|]; [|discriminate]. pose proof (Lmin _ (in_map snd _ _ Hp)). pose proof (Lmax _ (in_map snd _ _ Hq)). lra. }
  destruct (diff_spec lo hi Fl Fh Bl Bh ltac:(lra)) as (Fd & Ed & D0 & Dr). set (d := (hi - lo)%float) in *.
  assert (DP : 0 < fval d).
  { apply Rabs_le_inv in Dr. assert (u64 * (fval hi - fval lo) < fval hi - fval lo); [|lra].
    rewrite <- (Rmult_1_l (fval hi - fval lo)) at 2. apply Rmult_lt_compat_r; [lra|]. pose proof u64_pos. lra. }
  assert (X : forall x, In x (map snd c) -> ffin (x - lo)%float /\ fval (x - lo)%float = rnd (fval x - fval lo) /\ 0 <= fval (x - lo)%float <= fval d).
  { intros x Hx. destruct (TA x Hx) as [Fx Bx]. destruct (diff_spec lo x Fl Fx Bl Bx (Lmin x Hx)) as (F & E & P & _).
    split; [exact F|]. split; [exact E|]. split; [exact P|]. rewrite E, Ed. apply rnd_le. pose proof (Lmax x Hx). lra. }
  assert (Y : forall x, In x (map snd c) -> let z := ((x - lo) / d)%float in
     ffin z /\ fval z = rnd (fval (x - lo)%float / fval d) /\ 0 <= fval z <= 1).
  { intros x Hx z. destruct (X x Hx) as (F & _ & Q). destruct (ratio_spec (x - lo)%float d F Fd Q DP) as (E & Fz & R). split; [exact Fz|]. split; [exact E|].
    unfold z. rewrite E. split; [apply rnd_nonneg, R|]. rewrite <- fval_one. apply rnd_le_fval. rewrite fval_one. apply R. }
  assert (N : forall i x, nth_error c i = Some x -> nth_error (map (fun q => (fst q, ((snd q - lo) / (hi - lo))%num)) c) i = Some (fst x, ((snd x - lo) / d)%float)).
  { intros i x H. rewrite nth_error_map, H. reflexivity. }
  assert (INx : forall i x, nth_error c i = Some x -> In (snd x) (map snd c)) by (intros i x H; apply in_map; eapply nth_error_In; exact H).
  split; [rewrite map_map; reflexivity|]. split; [|split; [|split]].
  - rewrite Forall_map, Forall_forall. intros q Hx. cbn [snd]. destruct (Y (snd q) (in_map snd _ _ Hx)) as (F & _ & Q0 & Q1).
    change ((snd q - lo) / (hi - lo))%num with ((snd q - lo) / d)%float. unfold in_unit.
    rewrite (proj2 (leb_true 0%float _ ffin_zero F)) by exact Q0. rewrite (proj2 (leb_true _ 1%float F ffin_one)) by (change (fval 1%float) with (fval n1); rewrite fval_one; exact Q1). reflexivity.
  - apply in_map_iff in Imin. destruct Imin as (q & E & Hx). destruct (In_nth_error _ _ Hx) as (i & Hi). exists i, q. split; [exact Hi|]. split.
    + intros y Hy. rewrite E. apply (leb_true _ _ Fl (proj1 (TA _ (in_map snd _ _ Hy)))). apply Lmin, in_map, Hy.
    + exists (fst q, ((snd q - lo) / d)%float). split; [apply N, Hi|]. cbn [snd]. destruct (Y (snd q) (INx i q Hi)) as (F & Ez & _). apply (eqb_true _ _ F ffin_zero). rewrite Ez.
      destruct (X (snd q) (INx i q Hi)) as (_ & Ex & _). rewrite Ex, E, Rminus_diag_eq, rnd_0 by reflexivity. unfold Rdiv. rewrite Rmult_0_l. apply rnd_0.
  - apply in_map_iff in Imax. destruct Imax as (q & E & Hx). destruct (In_nth_error _ _ Hx) as (i & Hi). exists i, q. split; [exact Hi|]. split.
    + intros y Hy. rewrite E. apply (leb_true _ _ (proj1 (TA _ (in_map snd _ _ Hy))) Fh). apply Lmax, in_map, Hy.
    + exists (fst q, ((snd q - lo) / d)%float). split; [apply N, Hi|]. cbn [snd]. destruct (Y (snd q) (INx i q Hi)) as (F & Ez & _). apply (eqb_true _ 1%float F ffin_one). rewrite Ez.
      rewrite E. fold d. unfold Rdiv. rewrite Rinv_r by lra. change (fval 1%float) with (fval n1). rewrite <- fval_one. apply rnd_fval.
  - intros i j x y z w Hx Hy Hz Hw L. rewrite (N i x Hx) in Hz. rewrite (N j y Hy) in Hw. injection Hz as <-. injection Hw as <-. cbn [snd].
    destruct (Y (snd x) (INx i x Hx)) as (F1 & E1 & _). destruct (Y (snd y) (INx j y Hy)) as (F2 & E2 & _).
    apply (leb_true _ _ F1 F2). rewrite E1, E2. apply rnd_le. unfold Rdiv. apply Rmult_le_compat_r; [left; apply Rinv_0_lt_compat, DP|].
    destruct (X (snd x) (INx i x Hx)) as (_ & G1 & _). destruct (X (snd y) (INx j y Hy)) as (_ & G2 & _). rewrite G1, G2. apply rnd_le.
    apply (leb_true _ _ (proj1 (TA _ (INx i x Hx))) (proj1 (TA _ (INx j y Hy)))) in L. lra.
Qed.
