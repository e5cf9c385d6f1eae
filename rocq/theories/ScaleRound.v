(** Rounding errors of the radiation scaling in binary64. *)
From Coq Require Import String ZArith List Bool Lia Reals Lra Floats Permutation.
From Flocq Require Import Core BinarySingleNaN PrimFloat.
From Verif Require Import Py Num Cal Series UtilModel UtilModel2 Frame SpecBase SpecUtil TimeProofs DaysProofs TempProofs TempCourse
  F64 CascadeFloat CascadeRound SpecMasterRound MasterRound SpecFiveRound FiveModel FiveRound SpecCourseRound CourseModel CourseRound
  SpecSineRound ErrCalc SineRound WindRound SpecScaleRound ScaleModel.
Import ListNotations.
Open Scope R_scope.
Notation float := PrimFloat.float (only parsing).

(** ** means *)
Lemma mean_of_sum l t : length l = 24%nat -> Forall moderate l -> ffin t -> 0 <= fval t ->
  Rabs (fval t - fsum l) <= 28 / 10 ^ 15 * fsum l ->
  ffin (t / n_ofZ 24)%float /\ 0 <= fval (t / n_ofZ 24)%float /\
  Rabs (fval (t / n_ofZ 24)%float - Rmean (map fval l)) <= 3 / 10 ^ 14 * Rmean (map fval l) + 1 / 10 ^ 300.
Proof.
  intros L M Ft T0 E. apply Forall_moderate in M. pose proof (fsum_cap l M) as [S0 SC].
  assert (EM : Rmean (map fval l) = fsum l / 24).
  { unfold Rmean. rewrite map_length, L. fold (fsum l). rewrite INR_IZR_INZ. reflexivity. }
  rewrite EM. destruct (ofZ_val 24) as [_ V]; [lia|].
  assert (SC' : fsum l <= 24 * cap) by (rewrite L, INR_IZR_INZ in SC; exact SC).
  pose proof (bpow_gt_0 radix2 900) as C0. fold cap in C0. pose proof cap_1 as C1.
  apply Rabs_le_inv in E. pose proof eta64_small as ES.
  pose proof (rnd_err_nn (fval t / 24) ltac:(lra)) as R.
  destruct (fdiv_correct t (n_ofZ 24) Ft) as [ED FD]; [rewrite V; lra| |].
  { rewrite V. apply rnd_in_range. rewrite Rabs_pos_eq by lra. lra. }
  rewrite V in ED. split; [exact FD|]. rewrite ED. split; [apply rnd_nonneg; lra|].
  apply Rabs_le_inv in R. apply Rabs_le. unfold u64 in *. lra.
Qed.
Lemma mean_adds tot : adds_somehow tot -> means_within (fun l => (tot l / n_ofZ 24)%float).
Proof.
  intros HT l L M. pose proof (Forall_moderate l M) as F.
  assert (V : Forall (fun x => PrimFloat.is_nan x = false) l).
  { eapply Forall_impl; [|exact F]. intros x ((Fx & _) & _). apply not_nan, Fx. }
  destruct (HT l L V) as (k & K & A). pose proof u64_pos as U. pose proof (fsum_cap l F) as [S0 _].
  destruct (adds_err _ _ A) as (Ff & Lo & Up).
  - rewrite app_length, repeat_length. lia.
  - apply Forall_app. split; [|exact F]. apply Forall_forall. intros x Hx. apply repeat_spec in Hx. subst. exact fok_n0.
  - assert (LL : length (repeat 0%float k ++ l) = (k + 24)%nat) by (rewrite app_length, repeat_length, L; reflexivity).
    rewrite fsum_zeros, LL in Lo, Up.
    assert (I : 0 <= INR (k + 24) <= 48) by (split; [apply pos_INR|apply (FiveRound.INR_le _ 48); lia]).
    destruct (pow_small (k + 24)) as [P1 P2]; [unfold u64; lra|].
    assert (A1 : INR (k + 24) * u64 <= 48 * u64) by (apply Rmult_le_compat_r; [unfold u64; lra|lra]).
    assert (L1 : fsum l * (1 - 48 * u64) <= fval (tot l)) by (eapply Rle_trans; [|exact Lo]; apply Rmult_le_compat_l; lra).
    assert (U1 : fval (tot l) <= fsum l * (1 + 96 * u64)) by (eapply Rle_trans; [exact Up|]; apply Rmult_le_compat_l; lra).
    assert (T0 : 0 <= fval (tot l)) by (eapply Rle_trans; [|exact L1]; apply Rmult_le_pos; [exact S0|unfold u64; lra]).
    destruct (mean_of_sum l (tot l) L M Ff T0) as (F1 & F2 & F3).
    { unfold u64 in *. apply Rabs_le. lra. }
    split; [apply ffin_spec, F1|]. split; [exact F2|exact F3].
Qed.
Lemma mean_kahan : means_within (fun l => (kahan l / n_ofZ 24)%float).
Proof.
  intros l L M. pose proof (Forall_moderate l M) as F.
  assert (I0 : kinv 0 0 (0%float, 0%float)).
  { unfold kinv. cbn [fst snd INR]. change (fval 0%float) with 0. split; [exact ffin_zero|]. split; [exact ffin_zero|].
    split; [lra|]. rewrite Rminus_0_r, Rabs_R0. lra. }
  assert (L24 : (0 + length l <= 24)%nat) by lia.
  pose proof (kahan_inv l F 0 0 (0%float, 0%float) L24 ltac:(lra) ltac:(cbn; lra) I0) as (Fk & _ & P & E & _).
  cbn [plus] in E. rewrite Rplus_0_l in E.
  assert (EK : kahan l = fst (fold_left kahan_step l (0%float, 0%float))) by (unfold kahan; rewrite (valid_fok l F); reflexivity).
  rewrite EK. pose proof (fsum_cap l F) as [S0 _].
  destruct (mean_of_sum l (fst (fold_left kahan_step l (0%float, 0%float))) L M Fk P) as (F1 & F2 & F3).
  { eapply Rle_trans; [exact E|]. apply Rmult_le_compat_r; [exact S0|]. rewrite L.
    assert (INR 24 <= 24) by (apply (FiveRound.INR_le 24 24); lia). unfold u64. lra. }
  split; [apply ffin_spec, F1|]. split; [exact F2|exact F3].
Qed.

(** ** one hour *)
Lemma intensity_spec x : intensity x -> ffin x /\ 0 <= fval x <= cap4.
Proof.
  unfold intensity. rewrite andb_true_iff. intros [A B].
  assert (F : ffin x) by (apply (between_finite 0%float x 0x1p400%float); (reflexivity || assumption)).
  assert (E : fval 0x1p400%float = cap4) by (unfold fval, cap4; vm_compute; lra).
  destruct (fleb_correct 0%float x ffin_zero F) as [A'|]; [|discriminate].
  destruct (fleb_correct x 0x1p400%float F eq_refl) as [B'|]; [|discriminate].
  split; [exact F|]. change (fval 0%float) with 0 in A'. lra.
Qed.
Lemma cent : ffin (lit 1 2 : float) /\ Rabs (fval (lit 1 2 : float) - 1 / 100) <= 1 / 10 ^ 17 /\ (lit 1 2 : float) = 0x1.47ae147ae147bp-7%float.
Proof.
  assert (E : (lit 1 2 : float) = 0x1.47ae147ae147bp-7%float) by (vm_compute; reflexivity). rewrite E. split; [reflexivity|]. split; [|reflexivity].
  assert (V : fval 0x1.47ae147ae147bp-7%float = 5764607523034235 / 576460752303423488) by (unfold fval; vm_compute; lra). rewrite V. apply Rabs_le. lra.
Qed.
Lemma eta_cap4 : eta64 * cap4 <= 1 / 10 ^ 150.
Proof.
  unfold cap4. unfold eta64. rewrite Rmult_assoc, <- bpow_plus. pose proof (bpow_gt_0 radix2 (-1074 + 400)).
  apply Rle_trans with (bpow radix2 (-600)); [apply Rle_trans with (bpow radix2 (-1074 + 400)); [lra|apply bpow_le; lia]|].
  change (bpow radix2 (-600)) with (/ IZR (2 ^ 600)). unfold Rdiv. rewrite Rmult_1_l. apply Rinv_le; [apply pow_lt; lra|].
  rewrite (pow_IZR 10). apply IZR_le. apply Z.leb_le. vm_compute. reflexivity.
Qed.

Section Hour.
  Variables (m g : float) (M : R).
  Hypotheses (M0 : / 10 ^ 100 <= M) (HM : Rabs (fval m - M) <= 3 / 10 ^ 14 * M + 1 / 10 ^ 300) (Ig : intensity g).

  Lemma ratio_value x : intensity x -> fval x <= 24 * M ->
    let y := fval x / M * fval g in
    ffin (x / m)%float /\ fval (x / m)%float = rnd (fval x / fval m) /\ 0 < fval m /\
    ffin (x / m * g)%float /\ fval (x / m * g)%float = rnd (fval (x / m)%float * fval g) /\ 0 <= fval (x / m)%float /\ 0 <= fval (x / m * g)%float /\
    Rabs (fval (x / m * g)%float - y) <= 5 / 10 ^ 14 * y + 1 / 10 ^ 100.
  Proof.
    intros Ix XM y. destruct (intensity_spec x Ix) as [Fx [X0 XC]], (intensity_spec g Ig) as [Fg [G0 GC]].
    assert (P : 0 < / 10 ^ 100) by (apply Rinv_0_lt_compat, pow_lt; lra).
    assert (HM' : Rabs (fval m - M) <= 31 / 10 ^ 15 * M).
    { eapply Rle_trans; [exact HM|]. lra. }
    apply Rabs_le_inv in HM'. set (mv := fval m) in *. assert (m0 : 0 < mv) by lra.
    set (r := fval x / M). assert (R0 : 0 <= r <= 24).
    { unfold r. split; [apply Rmult_le_pos; [exact X0|left; apply Rinv_0_lt_compat; lra]|]. apply Rmult_le_reg_r with M; [lra|]. unfold Rdiv. rewrite Rmult_assoc, Rinv_l by lra. lra. }
    assert (EX : fval x = r * M) by (unfold r; field; lra).
    set (q0 := fval x / mv). assert (Q0 : r * (1 - 32 / 10 ^ 15) <= q0 <= r * (1 + 32 / 10 ^ 15)).
    { assert (EQ : q0 * mv = r * M) by (unfold q0; rewrite EX; field; lra).
      split; (apply Rmult_le_reg_r with mv; [exact m0|]); rewrite EQ.
      - replace (r * (1 - 32 / 10 ^ 15) * mv) with (r * (mv - 32 / 10 ^ 15 * mv)) by ring. apply Rmult_le_compat_l; lra.
      - replace (r * (1 + 32 / 10 ^ 15) * mv) with (r * (mv + 32 / 10 ^ 15 * mv)) by ring. apply Rmult_le_compat_l; lra. }
    pose proof eta64_small as ES. pose proof eta64_pos as EP. pose proof cap_1 as C1. pose proof cap4_square as [K1 K2]. pose proof eta_cap4 as EC. pose proof eta_tiny as ET.
    assert (KC : 100 * cap4 <= 100 * cap) by nra.
    destruct (fdiv_correct x m Fx) as [E1 F1]; [fold mv; lra|apply rnd_in_range; fold mv; fold q0; rewrite Rabs_pos_eq by lra; lra|].
    fold mv in E1. fold q0 in E1. pose proof (rnd_err_nn q0 ltac:(lra)) as R1. rewrite <- E1 in R1. set (q := (x / m)%float) in *. apply Rabs_le_inv in R1.
    assert (qp : 0 <= fval q) by (rewrite E1; apply rnd_nonneg; lra).
    assert (Q1 : r * (1 - 33 / 10 ^ 15) - eta64 <= fval q <= r * (1 + 33 / 10 ^ 15) + eta64) by (unfold u64 in R1; lra).
    set (gv := fval g) in *. assert (QG : r * gv * (1 - 33 / 10 ^ 15) - eta64 * gv <= fval q * gv <= r * gv * (1 + 33 / 10 ^ 15) + eta64 * gv).
    { replace (r * gv * (1 - 33 / 10 ^ 15) - eta64 * gv) with ((r * (1 - 33 / 10 ^ 15) - eta64) * gv) by ring.
      replace (r * gv * (1 + 33 / 10 ^ 15) + eta64 * gv) with ((r * (1 + 33 / 10 ^ 15) + eta64) * gv) by ring.
      split; apply Rmult_le_compat_r; lra. }
    assert (EG : 0 <= eta64 * gv <= 1 / 10 ^ 150).
    { split; [apply Rmult_le_pos; lra|]. eapply Rle_trans; [|exact EC]. apply Rmult_le_compat_l; lra. }
    assert (Y0 : 0 <= r * gv) by (apply Rmult_le_pos; lra).
    assert (YC : r * gv <= 24 * cap4).
    { eapply Rle_trans; [apply Rmult_le_compat_r; [exact G0|exact (proj2 R0)]|]. lra. }
    assert (PG : 0 <= fval q * gv) by (apply Rmult_le_pos; lra).
    assert (I150 : 1 / 10 ^ 150 <= 1 / 4 * (1 / 10 ^ 100)).
    { unfold Rdiv at 1. rewrite Rmult_1_l. replace (10 ^ 150) with (10 ^ 100 * 10 ^ 50) by (rewrite <- pow_add; reflexivity). lra. }
    assert (ES2 : eta64 <= 1 / 4 * (1 / 10 ^ 100)).
    { eapply Rle_trans; [|exact I150]. eapply Rle_trans; [|exact EC]. rewrite <- (Rmult_1_r eta64) at 1. apply Rmult_le_compat_l; lra. }
    destruct (fmul_correct q g F1 Fg) as [E2 F2].
    { fold gv. apply rnd_in_range. rewrite Rabs_pos_eq by exact PG. lra. }
    fold gv in E2. pose proof (rnd_err_nn (fval q * gv) PG) as R2. rewrite <- E2 in R2. apply Rabs_le_inv in R2.
    split; [exact F1|]. split; [exact E1|]. split; [exact m0|]. split; [exact F2|]. split; [exact E2|]. split; [exact qp|].
    split; [rewrite E2; apply rnd_nonneg, PG|]. change y with (r * gv). apply Rabs_le. unfold u64 in R2. lra.
  Qed.
  Lemma cut_cases w : ffin w -> 0 <= fval w ->
    (cut_small w = n0 /\ fval w < 1 / 100 + 1 / 10 ^ 17) \/ (cut_small w = w /\ (0x1.47ae147ae147bp-7 <=? w)%float = true /\ 1 / 100 - 1 / 10 ^ 17 <= fval w).
  Proof.
    intros Fw W0. destruct cent as (FC & EC & VC). apply Rabs_le_inv in EC. unfold cut_small. change (n_ltb w (lit 1 2)) with (w <? (lit 1 2 : float))%float.
    destruct (fltb_correct w (lit 1 2) Fw FC) as [K|K]; [left|right].
    - split; [reflexivity|lra].
    - split; [reflexivity|]. apply Rnot_lt_le in K. split; [|lra]. rewrite <- VC. apply (leb_true _ _ FC Fw), K.
  Qed.
  Definition hour_of_course (x : float) : float := cut_small (x / m * g)%float.
  Lemma hour_scaled x : intensity x -> fval x <= 24 * M ->
    scaled_hour (fval x / M * fval g) (hour_of_course x) /\ 0 <= fval (hour_of_course x) /\
    ((x =? 0)%float = true \/ (g =? 0)%float = true -> (hour_of_course x =? 0)%float = true).
  Proof.
    intros Ix XM. destruct (ratio_value x Ix XM) as (F1 & E1 & m0 & F2 & E2 & Q0 & W0 & R). cbv zeta in R.
    set (y := fval x / M * fval g) in *. set (w := (x / m * g)%float) in *.
    destruct (intensity_spec x Ix) as [Fx [X0 _]], (intensity_spec g Ig) as [Fg [G0 _]].
    apply Rabs_le_inv in R. unfold hour_of_course. fold w.
    assert (T : 1 / 10 ^ 100 <= 1 / 10 ^ 18).
    { unfold Rdiv. rewrite !Rmult_1_l. apply Rinv_le; [apply pow_lt; lra|]. apply Rle_pow; [lra|lia]. }
    destruct (cut_cases w F2 W0) as [(-> & K)|(-> & K1 & K2)].
    - split; [|split; [change (fval n0) with 0; lra|reflexivity]]. split; [reflexivity|]. left. split; [reflexivity|]. lra.
    - split; [|split; [exact W0|]].
      + split; [apply ffin_spec, F2|]. right. split; [exact K1|]. apply Rabs_le. lra.
      + intro Z. exfalso. assert (fval w = 0); [|lra].
        destruct Z as [Z|Z].
        * apply (eqb_true _ _ Fx ffin_zero) in Z. change (fval 0%float) with 0 in Z. rewrite E2, E1, Z. unfold Rdiv. rewrite Rmult_0_l, rnd_0, Rmult_0_l. apply rnd_0.
        * apply (eqb_true _ _ Fg ffin_zero) in Z. change (fval 0%float) with 0 in Z. rewrite E2, Z, Rmult_0_r. apply rnd_0.
  Qed.
  Lemma hour_mono x x' : intensity x -> intensity x' -> fval x <= 24 * M -> fval x' <= 24 * M -> (x <=? x')%float = true ->
    (hour_of_course x <=? hour_of_course x')%float = true.
  Proof.
    intros Ix Ix' XM XM' L. destruct (ratio_value x Ix XM) as (F1 & E1 & m0 & F2 & E2 & Q0 & W0 & _).
    destruct (ratio_value x' Ix' XM') as (F1' & E1' & _ & F2' & E2' & Q0' & W0' & _).
    destruct (intensity_spec x Ix) as [Fx [X0 _]], (intensity_spec x' Ix') as [Fx' [X0' _]], (intensity_spec g Ig) as [Fg [G0 _]].
    apply (leb_true _ _ Fx Fx') in L.
    assert (W : fval (x / m * g)%float <= fval (x' / m * g)%float).
    { rewrite E2, E2'. apply rnd_le, Rmult_le_compat_r; [exact G0|]. rewrite E1, E1'. apply rnd_le. unfold Rdiv. apply Rmult_le_compat_r; [left; apply Rinv_0_lt_compat, m0|exact L]. }
    unfold hour_of_course, cut_small. destruct cent as (FC & _ & _).
    change (n_ltb (x / m * g)%float (lit 1 2)) with (x / m * g <? (lit 1 2 : float))%float. change (n_ltb (x' / m * g)%float (lit 1 2)) with (x' / m * g <? (lit 1 2 : float))%float.
    destruct (fltb_correct _ _ F2 FC) as [K|K], (fltb_correct _ _ F2' FC) as [K'|K'].
    - reflexivity.
    - apply (leb_true _ _ ffin_zero F2'). exact W0'.
    - exfalso. lra.
    - apply (leb_true _ _ F2 F2'), W.
  Qed.
End Hour.

(** ** days *)
Open Scope Z_scope.
Section Days.
  Context {T : Type} {N : Num T}.
  Lemma ffill_last_le_any (s : series T) : forall t acc, last_le t s (Some acc) = Some (lookup_ffill t s acc).
  Proof. induction s as [|[u v] s IH]; intros t acc; [reflexivity|]. cbn [last_le lookup_ffill]. destruct (u <=? t); [apply IH|reflexivity]. Qed.
  Lemma ffill_daily_any d0 (l : list T) i h acc : (i < length l)%nat -> (h < 24)%nat ->
    lookup_ffill (stamp (d0 + Z.of_nat i) h) (daily d0 l) acc = nth i l n_nan.
  Proof.
    intros Hi Hh. pose proof (ffill_last_le_any (daily d0 l) (stamp (d0 + Z.of_nat i) h) acc) as E.
    rewrite last_le_daily in E by assumption. rewrite (nth_error_nth' l i n_nan Hi) in E. congruence.
  Qed.
  Lemma scale_to_day mean pot d0 n (gl : list T) i g : map fst pot = hours_index d0 n -> length gl = n -> nth_error gl i = Some g ->
    values_on (d0 + Z.of_nat i) (scale_to pot (resample us_day mean pot) (daily d0 gl))
    = map (fun x => cut_small (x / mean (values_on (d0 + Z.of_nat i) pot) * g)%num) (values_on (d0 + Z.of_nat i) pot).
  Proof.
    intros E L Hg. assert (Hi : (i < n)%nat) by (rewrite <- L; apply nth_error_Some; congruence).
    rewrite (resample_hours mean d0 n pot E), <- daily_seq. set (pd := daily d0 _). unfold scale_to, values_on.
    assert (G : forall s, (forall p, In p s -> In (fst p) (hours_index d0 n)) ->
      map snd (filter (fun p => fst p / us_day =? d0 + Z.of_nat i)
                 (map (fun p => (fst p, cut_small (snd p / lookup_ffill (fst p) pd n_nan * lookup_ffill (fst p) (daily d0 gl) n_nan)%num)) s))
      = map (fun x => cut_small (x / mean (values_on (d0 + Z.of_nat i) pot) * g)%num)
          (map snd (filter (fun p => fst p / us_day =? d0 + Z.of_nat i) s))).
    { induction s as [|[t x] s IH]; intro H; [reflexivity|]. cbn [map filter fst].
      assert (IH' := IH (fun p Hp => H p (or_intror Hp))).
      destruct (Z.eqb_spec (t / us_day) (d0 + Z.of_nat i)) as [Q|Q]; [|exact IH']. cbn [map snd fst]. rewrite IH'. f_equal.
      specialize (H (t, x) (or_introl eq_refl)). cbn [fst] in H. apply in_hours in H as (j & h & Hj & Hh & ->).
      pose proof (stamp_date (d0 + Z.of_nat j) h Hh) as SD. unfold date_of in SD. rewrite SD in Q. assert (j = i) by lia. subst j.
      unfold pd. rewrite !ffill_daily_any by (rewrite ?map_length, ?seq_length; assumption || lia).
      set (F := fun k => mean (values_on (d0 + Z.of_nat k) pot)).
      rewrite (nth_indep (map F (seq 0 n)) n_nan (F O)) by (rewrite map_length, seq_length; lia).
      rewrite (map_nth F), seq_nth by lia. rewrite (nth_error_nth gl i n_nan Hg). reflexivity. }
    rewrite (G pot); [reflexivity|]. intros p Hp. rewrite <- E. apply in_map, Hp.
  Qed.
  Lemma rad_pot_days mean e (d : dframe T) d0 gl pot : gl <> [] -> f_index d = daily_index d0 (length gl) ->
    assoc "glob" (f_cols d) = Some gl -> map fst pot = hours_index d0 (length gl) ->
    exists out, rad_pot_with mean e d pot = Ok out /\ map fst out = hours_index d0 (length gl) /\
      forall i g, nth_error gl i = Some g ->
        values_on (d0 + Z.of_nat i) out = map (fun x => cut_small (x / mean (values_on (d0 + Z.of_nat i) pot) * g)%num) (values_on (d0 + Z.of_nat i) pot).
  Proof.
    intros NE FI C EP. unfold rad_pot_with. rewrite FI. destruct (length gl) as [|n] eqn:EL; [destruct gl; [contradiction|discriminate]|].
    unfold hourly_index. rewrite hourly_index_daily. cbn [bind]. unfold fcol. rewrite C, FI, <- EL. cbn [bind].
    change (combine (daily_index d0 (length gl)) gl) with (daily d0 gl). unfold index. rewrite daily_fst, daily_has_dup. unfold daily_index. rewrite grid_increasing by (unfold us_day; lia). cbn [orb negb].
    eexists. split; [reflexivity|]. split; [unfold scale_to; rewrite map_map; cbn [fst]; rewrite EL; exact EP|].
    intros i g Hg. apply scale_to_day with (n := S n); assumption.
  Qed.
  Definition table_value (g : Z -> list T) (t : Z) : T := nth (Z.to_nat (hour_of t)) (g (month_of_day (date_of t))) n_nan.
  Lemma rad_course_days mean e (d : dframe T) d0 n c (g : Z -> list T) : n <> O -> f_index d = daily_index d0 n ->
    (forall i h, (i < n)%nat -> (h < 24)%nat -> course_value c (stamp (d0 + Z.of_nat i) h) = Ok (nth h (g (month_of_day (d0 + Z.of_nat i))) n_nan)) ->
    rad_course_with mean e d c = rad_pot_with mean e d (map (fun t => (t, table_value g t)) (hours_index d0 n)).
  Proof.
    intros NE FI HC. unfold rad_course_with. rewrite FI. destruct n as [|n]; [contradiction|]. unfold hourly_index. rewrite hourly_index_daily. cbn [bind].
    assert (M : mapM (course_value c) (hours_index d0 (S n)) = Ok (map (table_value g) (hours_index d0 (S n)))).
    { assert (H : forall l, (forall t, In t l -> In t (hours_index d0 (S n))) -> mapM (course_value c) l = Ok (map (table_value g) l)).
      { induction l as [|t l IH]; intro H; [reflexivity|]. cbn [mapM map]. specialize (IH (fun u Hu => H u (or_intror Hu))).
        pose proof (H t (or_introl eq_refl)) as Ht. apply in_hours in Ht as (i & h & Hi & Hh & ->).
        rewrite (HC i h Hi Hh), IH. cbn [bind]. unfold table_value. rewrite stamp_hour, stamp_date, Nat2Z.id by exact Hh. reflexivity. }
      apply H. auto. }
    rewrite M. cbn [bind]. f_equal. generalize (hours_index d0 (S n)). induction l as [|t l IH]; [reflexivity|]. cbn. f_equal. exact IH.
  Qed.
End Days.
