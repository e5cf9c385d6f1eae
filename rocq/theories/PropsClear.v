(** Property C133: radiation spread over the day like the computed radiation of the clear sky, in doubles. *)
From Coq Require Import String ZArith List Bool Lia Reals Lra Floats.
From Flocq Require Import Core.
From Verif Require Import Py Num Cal Series Frame Trans RadModel SpecBase SpecUtil SpecRad SpecSky TimeProofs IndexProofs DaysProofs F64 CascadeFloat CascadeRound FiveRound CourseRound
  SpecSineRound ErrCalc SineRound PropsSineRound PotAnyModel SpecPotAny RadAny RadPot CalProofs PropsRad PotAny PropsPotAny
  SpecFiveRound SpecCourseRound SpecScaleRound ScaleModel ScaleRound PropsScaleRound PropsShift SpecClear.
Import ListNotations.
Open Scope R_scope.

(** shares of two means close to each other *)
Lemma share_close e p P s M k : 0 <= e -> Rabs (p - s) <= e -> Rabs (P - M) <= e -> 0 <= s <= k * M -> 0 < M -> 0 < P ->
  Rabs (p / P - s / M) <= (1 + k) * e / P.
Proof.
  intros E0 Ep EP [S0 SK] M0 P0.
  assert (K0 : 0 <= s / M <= k).
  { split; [apply Rmult_le_pos; [exact S0|left; apply Rinv_0_lt_compat; exact M0]|]. apply Rmult_le_reg_r with M; [exact M0|]. unfold Rdiv. rewrite Rmult_assoc, Rinv_l by lra. lra. }
  set (q := s / M) in *. assert (SQ : s = q * M) by (unfold q; field; lra).
  replace (p / P - q) with ((p - s + q * (M - P)) / P) by (rewrite SQ; field; lra).
  unfold Rdiv. rewrite Rabs_mult, (Rabs_pos_eq (/ P)) by (left; apply Rinv_0_lt_compat; exact P0).
  apply Rmult_le_compat_r; [left; apply Rinv_0_lt_compat; exact P0|].
  eapply Rle_trans; [apply Rabs_triang|]. rewrite Rabs_mult, (Rabs_pos_eq q) by lra. rewrite (Rabs_minus_sym M P).
  pose proof (Rabs_pos (P - M)). nra.
Qed.

Definition clear_pot sinf cosf asinf acosf (day : Z) (lon lat tz az : float) (h : nat) : float :=
  let p := pot_any np_pi sinf cosf asinf acosf (doy_of_day day) (Z.of_nat h) 0 lon lat tz 0%float az 0%float in (fst p + snd p)%float.

Lemma pot_of_day sinf cosf asinf acosf d0 n i lon lat tz az : (i < n)%nat ->
  values_on (d0 + Z.of_nat i) (potential_any np_pi sinf cosf asinf acosf (hours_index d0 n) lon lat tz 0%float az 0%float)
  = map (clear_pot sinf cosf asinf acosf (d0 + Z.of_nat i) lon lat tz az) (seq 0 24).
Proof.
  intro Hi. unfold potential_any.
  etransitivity; [apply (values_on_map_hours (fun t => let p := pot_any np_pi sinf cosf asinf acosf (doy_of_day (date_of t)) (hour_of t) (minute_of t) lon lat tz 0%float az 0%float in (fst p + snd p)%num) d0 n i Hi)|].
  apply map_ext_in. intros h Hh. apply in_seq in Hh. unfold clear_pot. rewrite stamp_date, stamp_hour, stamp_minute by lia. reflexivity.
Qed.

Lemma nth_seq24 h : (h < 24)%nat -> nth_error (seq 0 24) h = Some h.
Proof. intro H. rewrite (nth_error_nth' _ O) by (rewrite seq_length; exact H). rewrite seq_nth by exact H. reflexivity. Qed.

Section Day.
  Variables sinf cosf asinf acosf : float -> float.
  Hypothesis GS : good_sine sinf.
  Hypothesis GC : good_cosine cosf.
  Hypothesis E0 : exact_at_0 sinf cosf.
  Hypothesis BS : bounded_by_1 sinf.
  Hypothesis BC : bounded_by_1 cosf.
  Variable day : Z.
  Variables lon lat tz az : float.
  Hypothesis HLo : degrees lon.
  Hypothesis HLa : degrees lat.
  Hypothesis HZ : zone tz.
  Let f := clear_pot sinf cosf asinf acosf day lon lat tz az.
  Let S h := clear_sky (doy_of_day day) (Z.of_nat h) (fval lon) (fval lat) (fval tz).
  Let cl0 : cloudiness 0%float.
  Proof. split; [reflexivity|]. rewrite fv_0. lra. Qed.

  Lemma sky_range h : 0 <= S h <= 1367 * 1.1 * 0.8.
  Proof.
    unfold S, clear_sky. cbv zeta. pose proof (sun_ratio_bounds (doy_of_day day)) as RB.
    pose proof (day_height_bound (doy_of_day day) (Z.of_nat h) 0 (fval lon) (fval lat) (fval tz)) as DB.
    set (c := day_height _) in *. set (r := sun_ratio _) in *. clearbody c r.
    assert (0 <= (0.6 + 0.2 * c) * c <= 0.8) by nra. rewrite Rmult_assoc. set (q := (0.6 + 0.2 * c) * c) in *. nra.
  Qed.
  Lemma hour_near h : (h < 24)%nat -> is_nan (f h) = false -> within (1 / 10 ^ 9) (f h) (S h).
  Proof.
    intros Hh NN.
    destruct (C125_flat sinf cosf asinf acosf (doy_of_day day) (Z.of_nat h) 0 lon lat tz az 0%float GS GC E0 BS BC (doy_range day) ltac:(lia) ltac:(lia) HLo HLa HZ cl0) as (_ & _ & D).
    cbv zeta in D. unfold f, clear_pot in *. cbv zeta in NN |- *. destruct D as [N|W]; [congruence|].
    revert W. rewrite fv_0. unfold S, clear_sky, day_height. cbv zeta. intros [F B]. split; [exact F|].
    match type of B with Rabs (_ - ?r) <= _ => match goal with |- Rabs (_ - ?s) <= _ => replace s with r by lra end end. exact B.
  Qed.
  Lemma hour_nonneg h : is_nan (f h) = false -> 0 <= fval (f h) <= 9000.
  Proof.
    intro NN. unfold f, clear_pot in *. cbv zeta in *.
    destruct (terrain_range sinf cosf asinf acosf BS BC (doy_of_day day) (Z.of_nat h) 0 lon lat tz 0%float az 0%float cl0) as [A B].
    assert (V9 : fval 9000%float = 9000) by (unfold fval; vm_compute; lra).
    pose proof (nr_add _ _ _ _ _ _ _ _ _ _ fv_0 V9 A B ltac:(lra) ltac:(lra)) as [N|[_ R]]; [|exact R].
    change (is_nan (fst (pot_any np_pi sinf cosf asinf acosf (doy_of_day day) (Z.of_nat h) 0 lon lat tz 0%float az 0%float) + snd (pot_any np_pi sinf cosf asinf acosf (doy_of_day day) (Z.of_nat h) 0 lon lat tz 0%float az 0%float))%float = true) in N.
    congruence.
  Qed.
  Lemma hour_night h : (h < 24)%nat -> is_nan (f h) = false -> sun_height (doy_of_day day) (Z.of_nat h) 0 (fval lon) (fval lat) (fval tz) <= - (1 / 10 ^ 12) ->
    (f h =? 0)%float = true.
  Proof.
    intros Hh NN HN.
    destruct (night_pot sinf cosf asinf acosf GC GS E0 BS BC (doy_of_day day) (Z.of_nat h) 0 lon lat tz az 0%float (doy_range day) ltac:(lia) ltac:(lia) HLo HLa HZ cl0 HN) as [A [F V]].
    unfold f, clear_pot in *. cbv zeta in *.
    set (a := fst _) in *. set (b := snd _) in *. clearbody a b.
    destruct A as [N|[FA VA]]; [rewrite nan_add in NN by (left; exact N); discriminate|].
    destruct (fadd_correct a b FA F) as [E FE]; [rewrite VA, V, Rplus_0_l; apply (mid_small _ 0%float 0%float); rewrite fv_0; lra|].
    apply (eqb_true _ _ FE ffin_zero). rewrite E, VA, V, Rplus_0_l. first [rewrite fv_0; apply rnd_0|apply rnd_0].
  Qed.

  Let p := map f (seq 0 24).
  Let sky := map S (seq 0 24).
  Hypothesis NN : Forall (fun x => is_nan x = false) p.
  Hypothesis LM : 1 <= Rmean sky.
  Lemma day_nn h : (h < 24)%nat -> is_nan (f h) = false.
  Proof. intro H. rewrite Forall_forall in NN. apply NN. unfold p. apply in_map, in_seq. lia. Qed.
  Lemma day_means : Rabs (Rmean (map fval p) - Rmean sky) <= 1 / 10 ^ 9.
  Proof.
    apply Rmean_close; [|unfold sky; discriminate]. unfold p, sky. rewrite map_map.
    assert (G : forall l, (forall h, In h l -> (h < 24)%nat) -> Forall2 (fun x r => Rabs (x - r) <= 1 / 10 ^ 9) (map (fun h => fval (f h)) l) (map S l)).
    { induction l as [|h l IH]; intro H; cbn [map]; constructor; [apply hour_near; [|apply day_nn]; apply H; left; reflexivity|apply IH; intros; apply H; right; assumption]. }
    apply G. intros h H. apply in_seq in H. lia.
  Qed.
  Lemma day_lit : lit_day p.
  Proof.
    assert (I : Forall intensity p).
    { unfold p. apply Forall_map, Forall_forall. intros h H. apply in_seq in H. assert (Hh : (h < 24)%nat) by lia.
      destruct (hour_near h Hh (day_nn h Hh)) as [F _]. apply ffin_spec in F. pose proof (hour_nonneg h (day_nn h Hh)) as B.
      unfold intensity. apply andb_true_iff. assert (F4 : ffin 0x1p400%float) by reflexivity.
      split; [apply (leb_true 0%float _ ffin_zero F); pose proof fv_0 as V0; lra|]. apply (leb_true _ _ F F4).
      assert (V4 : fval 0x1p400%float = bpow radix2 400) by (unfold fval; vm_compute; lra). rewrite V4.
      apply Rle_trans with (bpow radix2 14); [change (bpow radix2 14) with 16384; lra|apply bpow_le; lia]. }
    split; [unfold p; rewrite map_length, seq_length; reflexivity|]. split; [exact I|].
    assert (C : forall l : list float, (exists x, In x l /\ (0x1p-300 <=? x)%float = true) \/ (forall x, In x l -> (0x1p-300 <=? x)%float = false)).
    { induction l as [|x l [(y & Hy & By)|IH]]; [right; intros ? []|left; exists y; split; [right; exact Hy|exact By]|].
      destruct (0x1p-300 <=? x)%float eqn:Q; [left; exists x; split; [left; reflexivity|exact Q]|]. right. intros z [<-|Hz]; auto. }
    destruct (C p) as [?|K]; [assumption|exfalso].
    assert (F3 : ffin 0x1p-300%float) by reflexivity.
    assert (V3 : fval 0x1p-300%float = bpow radix2 (-300)) by (unfold fval; vm_compute; lra).
    assert (B3 : bpow radix2 (-300) <= / 2) by (change (/ 2) with (bpow radix2 (-1)); apply bpow_le; lia).
    assert (B : Rabs (Rmean (map fval p)) <= / 2).
    { apply Rmean_bound; [unfold p; discriminate|]. intros x Hx. apply in_map_iff in Hx. destruct Hx as (y & <- & Hy).
      rewrite Forall_forall in I. destruct (intensity_spec y (I y Hy)) as [Fy [Y0 _]]. rewrite Rabs_pos_eq by exact Y0.
      destruct (Rle_lt_dec (fval y) (/ 2)) as [L|L]; [exact L|]. specialize (K y Hy).
      assert (T : (0x1p-300 <=? y)%float = true) by (apply (leb_true _ _ F3 Fy); rewrite V3; lra). congruence. }
    pose proof day_means as M. apply Flocq.Core.Raux.Rabs_le_inv in M, B. lra.
  Qed.
  Lemma day_clear g w : intensity g -> scaled_to p g w ->
    length w = 24%nat /\
    (forall h s v, nth_error sky h = Some s -> nth_error w h = Some v ->
       clear_share sky (fval g) s v /\
       (sun_height (doy_of_day day) (Z.of_nat h) 0 (fval lon) (fval lat) (fval tz) <= - (1 / 10 ^ 12) -> (v =? 0)%float = true)) /\
    fval g - 1 / 100 - (1 / 10 ^ 13 * fval g + 1 / 10 ^ 15) <= Rmean (map fval w) <= fval g + 1 / 10 ^ 13 * fval g.
  Proof.
    intros Ig (L & HH & _ & MM). split; [exact L|]. split; [|exact MM]. intros h s v Hs Hv.
    assert (Hh : (h < 24)%nat) by (rewrite <- L; apply nth_error_Some; congruence).
    unfold sky in Hs. rewrite nth_error_map, nth_seq24 in Hs by exact Hh. cbn [option_map] in Hs. injection Hs as <-.
    assert (Hp : nth_error p h = Some (f h)) by (unfold p; rewrite nth_error_map, nth_seq24 by exact Hh; reflexivity).
    destruct (HH h (f h) v Hp Hv) as [[Fv SH] Z0].
    split; [|intro HN; apply Z0; left; apply hour_night; [exact Hh|apply day_nn; exact Hh|exact HN]].
    destruct (hour_near h Hh (day_nn h Hh)) as [_ Eh]. pose proof day_means as EM. pose proof (sky_range h) as [S0 _].
    destruct (intensity_spec g Ig) as [_ [G0 _]].
    assert (SK : S h <= 24 * Rmean sky).
    { assert (ES : 24 * Rmean sky = Rsum sky).
      { unfold Rmean, sky. rewrite map_length, seq_length, INR_IZR_INZ. cbn [Z.of_nat Pos.of_succ_nat Pos.succ]. field. }
      rewrite ES. apply Rsum_nonneg_ge; [|unfold sky; apply in_map, in_seq; lia]. unfold sky. apply Forall_map, Forall_forall. intros k _. apply sky_range. }
    set (P := Rmean (map fval p)) in *. set (M := Rmean sky) in *.
    assert (P0 : 0.99 <= P) by (apply Flocq.Core.Raux.Rabs_le_inv in EM; lra).
    pose proof (share_close (1 / 10 ^ 9) (fval (f h)) P (S h) M 24 ltac:(lra) Eh EM (conj S0 SK) ltac:(lra) ltac:(lra)) as SC.
    assert (SC' : Rabs (fval (f h) / P - S h / M) <= 26 / 10 ^ 9).
    { eapply Rle_trans; [exact SC|]. apply Rmult_le_reg_r with P; [lra|]. unfold Rdiv. rewrite (Rmult_assoc _ (/ P)), Rinv_l by lra. lra. }
    assert (K0 : 0 <= S h / M <= 24).
    { split; [apply Rmult_le_pos; [exact S0|left; apply Rinv_0_lt_compat; lra]|]. apply Rmult_le_reg_r with M; [lra|]. unfold Rdiv. rewrite Rmult_assoc, Rinv_l by lra. lra. }
    unfold clear_share. cbv zeta. fold M. split; [exact Fv|].
    set (a := fval (f h) / P) in *. set (b := S h / M) in *. clearbody a b. apply Flocq.Core.Raux.Rabs_le_inv in SC'.
    assert (AB : Rabs (a * fval g - b * fval g) <= 26 / 10 ^ 9 * fval g) by (apply Rabs_le; split; nra).
    apply Flocq.Core.Raux.Rabs_le_inv in AB.
    destruct SH as [[Zv Y]|[Lv K]]; [left; split; [exact Zv|lra]|right; split; [exact Lv|]].
    apply Flocq.Core.Raux.Rabs_le_inv in K. assert (BG : b * fval g <= 24 * fval g) by nra. apply Rabs_le. lra.
  Qed.
End Day.

(** 'pot_rad' with the computed potential radiation of flat ground without clouds *)
Theorem C133_clear_sky mean sinf cosf asinf acosf e (d : dframe float) d0 gl lon lat tz az :
  means_within mean -> good_sine sinf -> good_cosine cosf -> exact_at_0 sinf cosf -> bounded_by_1 sinf -> bounded_by_1 cosf ->
  degrees lon -> degrees lat -> zone tz ->
  gl <> [] -> f_index d = daily_index d0 (length gl) -> assoc "glob" (f_cols d) = Some gl ->
  let pot := potential_any np_pi sinf cosf asinf acosf (hours_index d0 (length gl)) lon lat tz 0%float az 0%float in
  exists out, rad_pot_with mean e d pot = Ok out /\ map fst out = hours_index d0 (length gl) /\
    forall i g, nth_error gl i = Some g -> intensity g ->
      let day := (d0 + Z.of_nat i)%Z in let sky := sky_day day (fval lon) (fval lat) (fval tz) in
      Forall (fun x => is_nan x = false) (values_on day pot) -> 1 <= Rmean sky ->
      length (values_on day out) = 24%nat /\
      (forall h s v, nth_error sky h = Some s -> nth_error (values_on day out) h = Some v ->
         clear_share sky (fval g) s v /\
         (sun_height (doy_of_day day) (Z.of_nat h) 0 (fval lon) (fval lat) (fval tz) <= - (1 / 10 ^ 12) -> (v =? 0)%float = true)) /\
      fval g - 1 / 100 - (1 / 10 ^ 13 * fval g + 1 / 10 ^ 15) <= Rmean (map fval (values_on day out)) <= fval g + 1 / 10 ^ 13 * fval g.
Proof.
  intros HM GS GC E0 BS BC HLo HLa HZ NE FI C pot.
  destruct (C109_pot_rad mean e d d0 gl pot HM NE FI C) as (out & E & EI & V).
  { unfold pot, potential_any. rewrite map_map. apply map_id. }
  exists out. split; [exact E|]. split; [exact EI|]. intros i g Hg Ig day sky NN LM. fold day in V. specialize (V i g Hg Ig).
  assert (Hi : (i < length gl)%nat) by (apply nth_error_Some; congruence).
  fold day in V. unfold pot in NN, V. unfold day in NN, V. rewrite pot_of_day in NN, V by exact Hi. fold day in NN, V.
  apply (day_clear sinf cosf asinf acosf GS GC E0 BS BC day lon lat tz az HLo HLa HZ NN LM g _ Ig).
  apply V. apply (day_lit sinf cosf asinf acosf GS GC E0 BS BC day lon lat tz az HLo HLa HZ NN LM).
Qed.
Print Assumptions C133_clear_sky.

(** ** the hypotheses can be met: the equator on 1 January 1970, sine and cosine correctly rounded (on flat ground the arc
    functions matter only in that they must return numbers) *)
Example C133_met :
  let pot := potential_any np_pi rounded_sin rounded_cosine (fun _ => 0%float) (fun _ => 0%float) (hours_index 0 1) 0%float 0%float 0%float 0%float 0%float 0%float in
  Forall (fun x => is_nan x = false) (values_on 0 pot) /\ 1 <= Rmean (sky_day 0 (fval 0) (fval 0) (fval 0)) /\
  means_within (fun l => (fold_left (fun a b => a + b) l 0 / n_ofZ 24)%float) /\ intensity 212.5%float /\ degrees 0%float /\ zone 0%float.
Proof.
  assert (DG : degrees 0%float) by (split; [reflexivity|rewrite fv_0, Rabs_R0; lra]).
  assert (ZO : zone 0%float) by (split; [reflexivity|rewrite fv_0, Rabs_R0; lra]).
  assert (CL : cloudiness 0%float) by (split; [reflexivity|rewrite fv_0; lra]).
  destruct C125_functions_exist as (GS & GC & E0 & BS & BC). cbv zeta.
  split; [|split; [|split; [|split; [reflexivity|split; assumption]]]].
  - change 0%Z with (0 + Z.of_nat 0)%Z at 1. rewrite pot_of_day by lia. change (0 + Z.of_nat 0)%Z with 0%Z. apply Forall_map, Forall_forall. intros h Hh. apply in_seq in Hh.
    unfold clear_pot. cbv zeta.
    pose proof (C125_nan rounded_sin rounded_cosine (fun _ => 0%float) (fun _ => 0%float) (doy_of_day 0) (Z.of_nat h) 0 0%float 0%float 0%float 0%float 0%float GS GC E0 BS BC (doy_range 0) ltac:(lia) ltac:(lia) DG DG ZO CL) as NA.
    destruct (C125_any_terrain rounded_sin rounded_cosine (fun _ => 0%float) (fun _ => 0%float) (doy_of_day 0) (Z.of_nat h) 0 0%float 0%float 0%float 0%float 0%float 0%float BS BC CL) as [A B].
    destruct (C125_flat rounded_sin rounded_cosine (fun _ => 0%float) (fun _ => 0%float) (doy_of_day 0) (Z.of_nat h) 0 0%float 0%float 0%float 0%float 0%float GS GC E0 BS BC (doy_range 0) ltac:(lia) ltac:(lia) DG DG ZO CL) as (_ & [FB _] & _).
    set (q := pot_any _ _ _ _ _ _ _ _ _ _ _ _ _ _) in *. clearbody q.
    assert (NF : forall x, PrimFloat.is_finite x = true -> is_nan x = true -> False).
    { intros x F N. unfold PrimFloat.is_finite in F. rewrite N in F. discriminate. }
    destruct A as [N|[FA RA]].
    { exfalso. apply NA in N. destruct N as [N|N].
      - refine (NF _ _ N). apply GS; [reflexivity|]. rewrite fv_0, Rabs_R0. lra.
      - unfold facing_any in N. refine (NF _ _ N). apply GC; [reflexivity|]. match goal with |- Rabs (fval ?x) <= _ => assert (V : fval x = 0) by (unfold fval; vm_compute; lra) end. rewrite V, Rabs_R0. lra. }
    destruct B as [N|[FB' RB]]; [destruct (NF _ FB N)|].
    assert (V1 : fval 9000%float = 9000) by (unfold fval; vm_compute; lra).
    destruct (fadd_correct (fst q) (snd q)) as [_ F]; [apply ffin_spec; assumption..|apply (mid_small _ 0%float 9000%float); rewrite ?fv_0, ?V1; lra|].
    apply ffin_spec in F. destruct (is_nan (fst q + snd q)%float) eqn:Q; [destruct (NF _ F Q)|reflexivity].
  - rewrite !fv_0. set (sky := sky_day 0 0 0 0).
    assert (NNS : Forall (fun x => 0 <= x) sky).
    { unfold sky, sky_day. apply Forall_map, Forall_forall. intros h _. pose proof (sky_range 0 0%float 0%float 0%float h) as [S _]. rewrite !fv_0 in S. exact S. }
    assert (IN : In (clear_sky (doy_of_day 0) 12 0 0 0) sky) by (unfold sky, sky_day; apply (in_map (fun h => clear_sky (doy_of_day 0) (Z.of_nat h) 0 0 0) (seq 0 24) 12%nat), in_seq; lia).
    pose proof (Rsum_nonneg_ge sky NNS _ IN) as G.
    assert (N12 : 24 <= clear_sky (doy_of_day 0) 12 0 0 0).
    { unfold clear_sky. cbv zeta. pose proof (sun_ratio_bounds (doy_of_day 0)) as RB.
      assert (H : / 2 <= sun_height (doy_of_day 0) 12 0 0 0 0).
      { unfold sun_height. replace (sun_hour_angle 12 0 0 0) with 0 by (unfold sun_hour_angle; lra). rewrite Rmult_0_l, sin_0, cos_0.
        assert (D : Rabs (sun_decl (doy_of_day 0)) <= PI / 3).
        { unfold sun_decl. rewrite Rabs_mult. pose proof PI_RGT_0. rewrite Rabs_pos_eq by lra. match goal with |- _ * Rabs (cos ?x) <= _ => pose proof (COS_bound x) as CB; assert (Rabs (cos x) <= 1) by (apply Rabs_le; lra); pose proof (Rabs_pos (cos x)) end. nra. }
        assert (C : cos (PI / 3) <= cos (sun_decl (doy_of_day 0))).
        { pose proof PI_RGT_0. unfold Rabs in D. destruct (Rcase_abs _) in D; [rewrite <- (cos_neg (sun_decl _))|]; apply cos_decr_1; lra. }
        rewrite cos_PI3 in C. lra. }
      unfold day_height. rewrite Rmax_right by lra.
      pose proof (day_height_bound (doy_of_day 0) 12 0 0 0 0) as DB. unfold day_height in DB. rewrite Rmax_right in DB by lra.
      set (c := sun_height _ _ _ _ _ _) in *. set (r := sun_ratio _) in *. clearbody c r. assert (0.3 <= (0.6 + 0.2 * c) * c) by nra. rewrite Rmult_assoc. nra. }
    unfold Rmean. replace (INR (length sky)) with 24 by (unfold sky, sky_day; rewrite map_length, seq_length, INR_IZR_INZ; reflexivity). lra.
  - apply (proj1 C109_means). exact C109_adder_exists.
Qed.
