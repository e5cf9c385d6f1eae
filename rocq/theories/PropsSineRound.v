(** Properties C106 and C107: the sine temperatures and the cosine wind in binary64 arithmetic. *)
From Coq Require Import String ZArith List Bool Lia Reals Lra Floats.
From Flocq Require Import Core BinarySingleNaN IEEE754.PrimFloat.
From Verif Require Import Py Num Cal Series Trans UtilModel UtilModel2 Frame TempModel WindModel SpecBase SpecUtil TimeProofs IndexProofs DaysProofs EqualProofs
  TempProofs F64 CascadeFloat CascadeRound FiveRound SpecCourseRound CourseRound SpecSineRound SineModel ErrCalc SineRound WindRound.
Import ListNotations.
Open Scope Z_scope.

(** the formulas are those of the other properties *)
Theorem C106_same_formula e (d : dframe xr) method mmt modn md mc st :
  (method = "sine_min_max" \/ method = "sine_mean" \/ method = "sine")%string ->
  disaggregate_temperature e d method mmt modn md mc (Some st)
  = (let* hours := hourly_index e (f_index d) in
     let* locs := locations (f_index d) mmt md (Some st) in
     let* mins := mapM to_int (fst locs) in
     let* maxs := mapM to_int (snd locs) in
     let* out := temp_sine xcos xpi e d (String.eqb method "sine_mean") modn mins maxs in
     let* _ := polar_branch e st hours in Ok out).
Proof. apply sine_model_agrees. Qed.
Print Assumptions C106_same_formula.

Lemma Bmax lo hi : tame lo -> tame hi -> (Rmax (Rabs (fval lo)) (Rabs (fval hi)) <= cap)%R.
Proof. intros A B. apply Rmax_lub; [apply (tame_spec lo A)|apply (tame_spec hi B)]. Qed.

(** every hour of 'sine_min_max' *)
Theorem C106_sine_min_max cosf e (d : dframe float) d0 tmin tmax temp modn mins maxs :
  good_cosine cosf -> daily_temps d d0 tmin tmax temp -> length mins = length temp -> length maxs = length temp ->
  exists out, temp_sine cosf np_pi e d false modn mins maxs = Ok out /\ map fst out = hours_index d0 (length temp) /\
    forall i h mn mx lo hi, (i < length temp)%nat -> (h < 24)%nat -> nth_error mins i = Some mn -> nth_error maxs i = Some mx ->
      plausible mn mx -> (modn = true -> mx <> mn + 24) ->
      low_for n_nan tmin i mx h = lo -> high_for n_nan tmax i mn h = hi -> tame lo -> tame hi ->
      exists w, nth_error (values_on (d0 + Z.of_nat i) out) h = Some w /\
        nearly (Rmax (Rabs (fval lo)) (Rabs (fval hi))) w
          (course_between (fval lo) (fval hi) (if modn then split_angle mn mx (Z.of_nat h) else day_angle mx (Z.of_nat h))).
Proof.
  intros G (NE & FI & L1 & L2 & C1 & C2 & C3) L3 L4.
  destruct (temp_sine_days cosf np_pi e d d0 tmin tmax temp false modn mins maxs NE FI L1 L2 C1 C2 C3 L3 L4) as (out & E & I & V).
  exists out. split; [exact E|]. split; [exact I|].
  intros i h mn mx lo hi Hi Hh Hn Hx PL ND EL EH Tl Th.
  eexists. split; [rewrite (V i Hi), nth_error_map, (nth_error_nth' (seq 0 24) h O) by (rewrite seq_length; exact Hh); rewrite seq_nth by exact Hh; reflexivity|].
  cbn [Nat.add]. set (r := the_row mins maxs tmin tmax temp i).
  assert (RN : r_min_loc r = mn) by (unfold r, the_row; cbn [r_min_loc]; apply nth_error_nth; exact Hn).
  assert (RX : r_max_loc r = mx) by (unfold r, the_row; cbn [r_max_loc]; apply nth_error_nth; exact Hx).
  assert (ELr : lo = (if Z.of_nat h <? r_max_loc r then r_min_cur r else r_min_next r)).
  { rewrite <- EL, RX. unfold low_for. rewrite Z.leb_antisym. unfold r, the_row. cbn [r_min_cur r_min_next]. destruct (Z.of_nat h <? mx); reflexivity. }
  assert (EHr : hi = (if Z.of_nat h <? r_min_loc r then r_max_before r else r_max_cur r)).
  { rewrite <- EH, RN. reflexivity. }
  assert (HZ : 0 <= Z.of_nat h < 24) by lia.
  destruct modn; rewrite <- RX, <- ?RN; [apply night_hour|apply plain_hour]; try assumption;
    try (apply Rmax_l); try (apply Rmax_r); try (apply Bmax; assumption); rewrite ?RN, ?RX; try assumption. apply ND. reflexivity.
Qed.
Print Assumptions C106_sine_min_max.

(** no hour lies outside the two daily extremes that apply to it by more than the error *)
Open Scope R_scope.
Lemma course_range lo hi a : Rmin lo hi <= course_between lo hi a <= Rmax lo hi.
Proof.
  unfold course_between. pose proof (COS_bound a) as [A B]. unfold Rmin, Rmax. destruct (Rle_dec lo hi); split; nra.
Qed.
Theorem C106_within cosf e (d : dframe float) d0 tmin tmax temp modn mins maxs :
  good_cosine cosf -> daily_temps d d0 tmin tmax temp -> length mins = length temp -> length maxs = length temp ->
  exists out, temp_sine cosf np_pi e d false modn mins maxs = Ok out /\
    forall i h mn mx lo hi, (i < length temp)%nat -> (h < 24)%nat -> nth_error mins i = Some mn -> nth_error maxs i = Some mx ->
      plausible mn mx -> (modn = true -> mx <> (mn + 24)%Z) ->
      low_for n_nan tmin i mx h = lo -> high_for n_nan tmax i mn h = hi -> tame lo -> tame hi ->
      exists w, nth_error (values_on (d0 + Z.of_nat i) out) h = Some w /\
        let slack := 1 / 10 ^ 13 * Rmax (Rabs (fval lo)) (Rabs (fval hi)) + 1 / 10 ^ 300 in
        Rmin (fval lo) (fval hi) - slack <= fval w <= Rmax (fval lo) (fval hi) + slack.
Proof.
  intros G D L3 L4. destruct (C106_sine_min_max cosf e d d0 tmin tmax temp modn mins maxs G D L3 L4) as (out & E & _ & V).
  exists out. split; [exact E|]. intros i h mn mx lo hi Hi Hh Hn Hx PL ND EL EH Tl Th.
  destruct (V i h mn mx lo hi Hi Hh Hn Hx PL ND EL EH Tl Th) as (w & W & F & A). exists w. split; [exact W|]. intro slack.
  fold slack in A. pose proof (course_range (fval lo) (fval hi) (if modn then split_angle mn mx (Z.of_nat h) else day_angle mx (Z.of_nat h))) as R.
  apply Rabs_le_inv in A. lra.
Qed.
Print Assumptions C106_within.

(** the hour of the maximum carries the day's maximum; with the night-time variant the hour of the
    minimum carries the day's minimum *)
Theorem C106_extremes cosf e (d : dframe float) d0 tmin tmax temp modn mins maxs :
  good_cosine cosf -> daily_temps d d0 tmin tmax temp -> length mins = length temp -> length maxs = length temp ->
  exists out, temp_sine cosf np_pi e d false modn mins maxs = Ok out /\
    forall i mn mx lo next hi, (i < length temp)%nat -> nth_error mins i = Some mn -> nth_error maxs i = Some mx -> (0 <= mn < mx)%Z -> (mx < 24)%Z ->
      nth_error tmin i = Some lo -> nth_error tmax i = Some hi -> next_or_own n_nan tmin i = next -> tame lo -> tame hi -> tame next ->
      (exists w, nth_error (values_on (d0 + Z.of_nat i) out) (Z.to_nat mx) = Some w /\ nearly (Rmax (Rabs (fval next)) (Rabs (fval hi))) w (fval hi)) /\
      (modn = true -> exists w, nth_error (values_on (d0 + Z.of_nat i) out) (Z.to_nat mn) = Some w /\ nearly (Rmax (Rabs (fval lo)) (Rabs (fval hi))) w (fval lo)).
Proof.
  intros G D L3 L4. destruct (C106_sine_min_max cosf e d d0 tmin tmax temp modn mins maxs G D L3 L4) as (out & E & _ & V).
  exists out. split; [exact E|]. intros i mn mx lo next hi Hi Hn Hx M1 M2 El Eh En Tl Th Tn.
  split.
  - destruct (V i (Z.to_nat mx) mn mx next hi Hi ltac:(lia) Hn Hx) as (w & W & B).
    + split; lia.
    + intros _; lia.
    + unfold low_for. rewrite Z2Nat.id by lia. rewrite Z.leb_refl. exact En.
    + unfold high_for. rewrite Z2Nat.id by lia. destruct (Z.ltb_spec mx mn); [lia|]. apply nth_error_nth. exact Eh.
    + exact Tn.
    + exact Th.
    + exists w. split; [exact W|]. rewrite Z2Nat.id in B by lia.
      replace (fval hi) with (course_between (fval next) (fval hi) (if modn then split_angle mn mx mx else day_angle mx mx)) at 2; [exact B|].
      assert (Z0 : (if modn then split_angle mn mx mx else day_angle mx mx) = 0).
      { unfold split_angle, day_angle. rewrite Z.leb_refl, Z.sub_diag. destruct modn; unfold Rdiv; ring. }
      rewrite Z0. unfold course_between. rewrite cos_0. field.
  - intros ->. destruct (V i (Z.to_nat mn) mn mx lo hi Hi ltac:(lia) Hn Hx) as (w & W & B).
    + split; lia.
    + intros _; lia.
    + unfold low_for. rewrite Z2Nat.id by lia. destruct (Z.leb_spec mx mn); [lia|]. apply nth_error_nth. exact El.
    + unfold high_for. rewrite Z2Nat.id by lia. rewrite Z.ltb_irrefl. apply nth_error_nth. exact Eh.
    + exact Tl.
    + exact Th.
    + exists w. split; [exact W|]. rewrite Z2Nat.id in B by lia.
      replace (fval lo) with (course_between (fval lo) (fval hi) (split_angle mn mx mn)) at 2; [exact B|].
      assert (Z0 : split_angle mn mx mn = PI).
      { unfold split_angle. destruct (Z.leb_spec mx mn); [lia|]. rewrite Z.ltb_irrefl.
        assert (IZR (mn + 24 - mx) <> 0) by (apply IZR_neq; lia). field. assumption. }
      rewrite Z0. unfold course_between. rewrite cos_PI. field.
Qed.
Print Assumptions C106_extremes.

(** 'sine_mean': the hours, and the sum of the day *)
Lemma angle_turn mx h : day_angle mx h = ang (h - mx).
Proof. unfold day_angle, ang. field. Qed.
Lemma Rsum_near (f g : nat -> R) e l : (forall h, In h l -> Rabs (f h - g h) <= e) -> Rabs (Rsum (map f l) - Rsum (map g l)) <= INR (length l) * e.
Proof.
  intro H. induction l as [|a l IH]; [cbn; rewrite Rminus_0_r, Rabs_R0; lra|].
  assert (H0 : Rabs (f a - g a) <= e) by (apply H; left; reflexivity).
  assert (H1 : Rabs (Rsum (map f l) - Rsum (map g l)) <= INR (length l) * e) by (apply IH; intros h Hh; apply H; right; exact Hh).
  change (length (a :: l)) with (S (length l)). rewrite S_INR. unfold Rsum in *. cbn [map fold_right].
  set (x := fold_right Rplus 0 (map f l)) in *. set (y := fold_right Rplus 0 (map g l)) in *.
  replace (f a + x - (g a + y)) with ((f a - g a) + (x - y)) by ring. eapply Rle_trans; [apply Rabs_triang|]. lra.
Qed.
Lemma Rsum_affine m k (f : nat -> R) l : Rsum (map (fun h => m + k * f h) l) = INR (length l) * m + k * Rsum (map f l).
Proof.
  induction l as [|a l IH]; [cbn; ring|]. change (length (a :: l)) with (S (length l)). rewrite S_INR. unfold Rsum in *. cbn [map fold_right]. rewrite IH. ring.
Qed.
Theorem C106_sine_mean cosf e (d : dframe float) d0 tmin tmax temp modn mins maxs :
  good_cosine cosf -> daily_temps d d0 tmin tmax temp -> length mins = length temp -> length maxs = length temp ->
  exists out, temp_sine cosf np_pi e d true modn mins maxs = Ok out /\ map fst out = hours_index d0 (length temp) /\
    forall i mn mx lo hi m, nth_error mins i = Some mn -> nth_error maxs i = Some mx -> plausible mn mx ->
      nth_error tmin i = Some lo -> nth_error tmax i = Some hi -> nth_error temp i = Some m -> tame lo -> tame hi -> tame m ->
      let B := Rmax (Rabs (fval m)) (Rmax (Rabs (fval lo)) (Rabs (fval hi))) in
      let ws := values_on (d0 + Z.of_nat i) out in
      length ws = 24%nat /\
      (forall h, (h < 24)%nat -> exists w, nth_error ws h = Some w /\
        nearly B w (fval m + (fval hi - fval lo) / 2 * cos (day_angle mx (Z.of_nat h)))) /\
      Rabs (Rsum (map fval ws) - 24 * fval m) <= 24 * (1 / 10 ^ 13 * B + 1 / 10 ^ 300).
Proof.
  intros G (NE & FI & L1 & L2 & C1 & C2 & C3) L3 L4.
  destruct (temp_sine_days cosf np_pi e d d0 tmin tmax temp true modn mins maxs NE FI L1 L2 C1 C2 C3 L3 L4) as (out & E & I & V).
  exists out. split; [exact E|]. split; [exact I|].
  intros i mn mx lo hi m Hn Hx PL El Eh Em Tl Th Tm B ws.
  assert (Hi : (i < length temp)%nat) by (apply nth_error_Some; congruence).
  assert (EW : ws = map (fun h => sine_value cosf np_pi true modn (the_row mins maxs tmin tmax temp i) (Z.of_nat h)) (seq 0 24)) by (apply V; exact Hi).
  set (r := the_row mins maxs tmin tmax temp i) in *.
  assert (RN : r_min_loc r = mn) by (unfold r, the_row; cbn [r_min_loc]; apply nth_error_nth; exact Hn).
  assert (RX : r_max_loc r = mx) by (unfold r, the_row; cbn [r_max_loc]; apply nth_error_nth; exact Hx).
  assert (RL : r_min_cur r = lo) by (unfold r, the_row; cbn [r_min_cur]; apply nth_error_nth; exact El).
  assert (RH : r_max_cur r = hi) by (unfold r, the_row; cbn [r_max_cur]; apply nth_error_nth; exact Eh).
  assert (RM : r_mean r = m) by (unfold r, the_row; cbn [r_mean]; apply nth_error_nth; exact Em).
  assert (HV : forall h, (h < 24)%nat -> nearly B (sine_value cosf np_pi true modn r (Z.of_nat h)) (fval m + (fval hi - fval lo) / 2 * cos (day_angle mx (Z.of_nat h)))).
  { intros h Hh. rewrite <- RM, <- RL, <- RH, <- RX. apply mean_hour; rewrite ?RM, ?RL, ?RH, ?RX, ?RN; try assumption; try lia.
    - apply Rmax_l.
    - eapply Rle_trans; [|apply Rmax_r]. apply Rmax_l.
    - eapply Rle_trans; [|apply Rmax_r]. apply Rmax_r.
    - apply Rmax_lub; [apply (tame_spec m Tm)|apply Bmax; assumption]. }
  split; [rewrite EW, map_length; apply seq_length|]. split.
  - intros h Hh. eexists. split; [rewrite EW, nth_error_map, (nth_error_nth' (seq 0 24) h O) by (rewrite seq_length; exact Hh); rewrite seq_nth by exact Hh; reflexivity|]. apply HV. exact Hh.
  - rewrite EW, map_map.
    assert (S : Rsum (map (fun h => fval m + (fval hi - fval lo) / 2 * cos (day_angle mx (Z.of_nat h))) (seq 0 24)) = 24 * fval m).
    { rewrite (Rsum_affine (fval m) ((fval hi - fval lo) / 2) (fun h => cos (day_angle mx (Z.of_nat h)))), seq_length.
      rewrite (map_ext _ (fun h => cos (ang (Z.of_nat h - mx)))) by (intro h; rewrite angle_turn; reflexivity). rewrite cos_sum_24. rewrite INR_IZR_INZ. cbn [Z.of_nat Pos.of_succ_nat Pos.succ]. ring. }
    rewrite <- S. eapply Rle_trans; [apply (Rsum_near _ _ (1 / 10 ^ 13 * B + 1 / 10 ^ 300)); intros h Hh; apply in_seq in Hh; apply HV; lia|].
    rewrite seq_length, INR_IZR_INZ. cbn [Z.of_nat Pos.of_succ_nat Pos.succ]. lra.
Qed.
Print Assumptions C106_sine_mean.

(** ** C107: wind *)
Theorem C107_same_formula e (w : series xr) a b s draw :
  disaggregate_wind e w "cosine" (Some a) (Some b) (Some s) draw
  = (let* l := wind_cosine xcos xpi e w a b s in Ok (WArray l, 0%nat)).
Proof. apply wind_model_agrees. Qed.
Print Assumptions C107_same_formula.

Lemma modest_valid w : modest w -> n_isnan w = false.
Proof. intro M. destruct (modest_spec w M) as [F _]. cbn [n_isnan Num_f64]. unfold f64_isnan. apply negb_false_iff. destruct (feqb_correct w w F F) as [_|K]; [reflexivity|]. exfalso; apply K; reflexivity. Qed.
Lemma wind_turn h s : wind_angle h s = (PI / 12 * INR h - PI / 12 * s).
Proof. unfold wind_angle. ring. Qed.
Lemma wind_sum s : Rsum (map (fun h => cos (wind_angle h s)) (seq 0 24)) = 0.
Proof.
  unfold Rsum. cbn [seq map fold_right].
  assert (H : forall k, cos (wind_angle (12 + k) s) = - cos (wind_angle k s)).
  { intro k. unfold wind_angle. rewrite plus_INR. replace (PI / 12 * (INR 12 + INR k - s)) with (PI / 12 * (INR k - s) + PI).
    - apply neg_cos.
    - rewrite (INR_IZR_INZ 12). cbn [Z.of_nat Pos.of_succ_nat Pos.succ]. field. }
  pose proof (H 0%nat) as H0. pose proof (H 1%nat) as H1. pose proof (H 2%nat) as H2. pose proof (H 3%nat) as H3. pose proof (H 4%nat) as H4. pose proof (H 5%nat) as H5.
  pose proof (H 6%nat) as H6. pose proof (H 7%nat) as H7. pose proof (H 8%nat) as H8. pose proof (H 9%nat) as H9. pose proof (H 10%nat) as H10. pose proof (H 11%nat) as H11.
  cbn [Nat.add] in *. rewrite H0, H1, H2, H3, H4, H5, H6, H7, H8, H9, H10, H11. ring.
Qed.
Theorem C107_cosine cosf e d0 (ws : list float) a b s :
  good_cosine cosf -> ws <> [] -> modest a -> modest b -> PrimFloat.is_finite s = true -> Rabs (fval s) <= 100 ->
  exists l, wind_cosine cosf np_pi e (daily d0 ws) a b s = Ok l /\ length l = (24 * length ws)%nat /\
    forall i w, nth_error ws i = Some w -> modest w ->
      let B := (Rabs (fval a) + Rabs (fval b)) * Rabs (fval w) in
      let day := chunk 24 i l in
      length day = 24%nat /\
      (forall h, (h < 24)%nat -> exists v, nth_error day h = Some v /\
         nearly B v (fval a * fval w * cos (wind_angle h (fval s)) + fval b * fval w)) /\
      Rabs (Rsum (map fval day) - 24 * (fval b * fval w)) <= 24 * (1 / 10 ^ 13 * B + 1 / 10 ^ 300) /\
      ((0 <=? w)%float = true -> (PrimFloat.abs a <=? b)%float = true ->
         Forall (fun v => (0 <=? v)%float = true /\ (v <=? b * w + b * w)%float = true) day).
Proof.
  intros G NE Ma Mb Fs Bs. apply ffin_spec in Fs.
  destruct (wind_cosine_days (N := Num_f64) cosf np_pi eq_refl e d0 ws a b s NE) as (l & E & L & V). exists l. split; [exact E|]. split; [exact L|].
  intros i w Hw Mw B day. assert (ED : day = map (fun h => cosine_wind cosf np_pi w (n_ofZ (Z.of_nat h)) a b s) (seq 0 24)) by (apply V; [exact Hw|apply modest_valid, Mw]).
  assert (HV : forall h, (h < 24)%nat -> nearly B (cosine_wind cosf np_pi w (n_ofZ (Z.of_nat h)) a b s) (fval a * fval w * cos (wind_angle h (fval s)) + fval b * fval w)).
  { intros h Hh. apply wind_hour; assumption. }
  split; [rewrite ED, map_length; apply seq_length|]. split; [|split].
  - intros h Hh. eexists. split; [rewrite ED, nth_error_map, (nth_error_nth' (seq 0 24) h O) by (rewrite seq_length; exact Hh); rewrite seq_nth by exact Hh; reflexivity|]. apply HV. exact Hh.
  - rewrite ED, map_map.
    assert (S : Rsum (map (fun h => fval a * fval w * cos (wind_angle h (fval s)) + fval b * fval w) (seq 0 24)) = 24 * (fval b * fval w)).
    { rewrite (map_ext _ (fun h => fval b * fval w + (fval a * fval w) * cos (wind_angle h (fval s)))) by (intro h; ring).
      rewrite (Rsum_affine (fval b * fval w) (fval a * fval w) (fun h => cos (wind_angle h (fval s)))), seq_length, wind_sum. rewrite INR_IZR_INZ. cbn [Z.of_nat Pos.of_succ_nat Pos.succ]. ring. }
    rewrite <- S. eapply Rle_trans; [apply (Rsum_near _ _ (1 / 10 ^ 13 * B + 1 / 10 ^ 300)); intros h Hh; apply in_seq in Hh; apply HV; lia|].
    rewrite seq_length, INR_IZR_INZ. cbn [Z.of_nat Pos.of_succ_nat Pos.succ]. lra.
  - intros W0 AB. rewrite ED. apply Forall_forall. intros v Hv. apply in_map_iff in Hv as (h & <- & Hh). apply in_seq in Hh.
    destruct (modest_spec w Mw) as [Fw _], (modest_spec a Ma) as [Fa _], (modest_spec b Mb) as [Fb _].
    apply (leb_true 0%float w ffin_zero Fw) in W0. change (fval 0%float) with 0 in W0.
    assert (FA : ffin (PrimFloat.abs a) /\ fval (PrimFloat.abs a) = Rabs (fval a)).
    { unfold ffin, fval in *. rewrite abs_equiv, is_finite_Babs, B2R_Babs. split; [exact Fa|reflexivity]. }
    apply (leb_true _ _ (proj1 FA) Fb) in AB. rewrite (proj2 FA) in AB.
    destruct (wind_sign cosf G w a b s Mw Ma Mb Fs Bs h ltac:(lia) W0 AB) as (FQ & V0 & V1).
    destruct (HV h ltac:(lia)) as [FV _]. apply ffin_spec in FV.
    split; [apply (leb_true 0%float _ ffin_zero FV); exact V0|apply (leb_true _ _ FV FQ); exact V1].
Qed.
Print Assumptions C107_cosine.

(** ** the hypotheses can be met *)
(** the correctly rounded cosine *)
Definition float_of_R (r : R) : float :=
  B2Prim (binary_normalize FloatOps.prec FloatOps.emax Hprec Hmax mode_NE (ZnearestE (scaled_mantissa radix2 fexp64 r)) (cexp radix2 fexp64 r) false).
Lemma float_of_R_val r : Rabs r <= 1 -> ffin (float_of_R r) /\ fval (float_of_R r) = rnd r.
Proof.
  intro H. unfold float_of_R, ffin, fval. rewrite Prim2B_B2Prim.
  pose proof (binary_normalize_correct FloatOps.prec FloatOps.emax Hprec Hmax mode_NE (ZnearestE (scaled_mantissa radix2 fexp64 r)) (cexp radix2 fexp64 r) false) as C. cbv zeta in C.
  change (F2R {| Fnum := ZnearestE (scaled_mantissa radix2 fexp64 r); Fexp := cexp radix2 fexp64 r |}) with (rnd r) in C.
  cbn [round_mode] in C. rewrite (round_generic radix2 fexp64 ZnearestE (rnd r)) in C by (apply generic_format_round; [exact (fexp_correct FloatOps.prec FloatOps.emax eq_refl)|apply valid_rnd_N]).
  assert (B : Rabs (rnd r) < bpow radix2 FloatOps.emax).
  { apply rnd_in_range. pose proof cap_1. lra. }
  rewrite Rlt_bool_true in C by exact B. destruct C as (A1 & A2 & _). split; [exact A2|exact A1].
Qed.
Definition rounded_cos (x : float) : float := float_of_R (cos (fval x)).
Example C106_cosine_exists : good_cosine rounded_cos.
Proof.
  intros x F _. unfold rounded_cos. assert (CB : Rabs (cos (fval x)) <= 1) by (apply Rabs_le, COS_bound).
  destruct (float_of_R_val _ CB) as [FC VC]. split; [apply ffin_spec; exact FC|]. rewrite VC. split.
  - apply Rabs_le_inv in CB. apply Rabs_le. split.
    + assert (V : fval (-1)%float = -1) by (unfold fval; vm_compute; lra). apply Rle_trans with (fval (-1)%float); [rewrite V; lra|]. apply rnd_ge_fval. rewrite V. lra.
    + assert (V : fval 1%float = 1) by (unfold fval; vm_compute; lra). apply Rle_trans with (fval 1%float); [|rewrite V; lra]. apply rnd_le_fval. rewrite V. lra.
  - pose proof (rnd_err (cos (fval x))) as R. pose proof eta_tiny as E. unfold u64 in R. lra.
Qed.
Definition ex_temps : dframe float := {| f_index := daily_index 19000 2; f_cols := [("tmin"%string, [3.25; -1.5]%float); ("tmax"%string, [12.5; 9.75]%float); ("temp"%string, [8.0; 4.5]%float)] |}.
Example C106_met : daily_temps ex_temps 19000 [3.25; -1.5]%float [12.5; 9.75]%float [8.0; 4.5]%float /\ plausible 7 14 /\
  low_for n_nan [3.25; -1.5]%float 0 14 20 = (-1.5)%float /\ high_for n_nan [12.5; 9.75]%float 1 7 3 = 12.5%float /\ tame (-1.5)%float /\ tame 12.5%float.
Proof. unfold daily_temps, plausible, tame. repeat split; try reflexivity; try lia. discriminate. Qed.
Example C107_met : modest 0.25%float /\ modest 1%float /\ modest 3.5%float /\ PrimFloat.is_finite 15%float = true /\ Rabs (fval 15%float) <= 100 /\
  (0 <=? 3.5)%float = true /\ (PrimFloat.abs 0.25 <=? 1)%float = true.
Proof.
  repeat split; try reflexivity. replace (fval 15%float) with 15 by (unfold fval; vm_compute; lra). rewrite Rabs_pos_eq; lra.
Qed.
