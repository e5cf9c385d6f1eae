(** Property C136: radiation from sunshine duration in doubles. *)
From Coq Require Import String ZArith List Bool Lia Reals Lra Floats.
From Flocq Require Import Core.
From Verif Require Import Py Num Cal Series Frame Trans UtilModel UtilModel2 TempModel TempProofs CascadeProofs RadModel SpecBase SpecUtil SpecRad SpecSky TimeProofs IndexProofs DaysProofs RadProofs F64 CascadeFloat CascadeRound FiveRound CourseRound
  SpecSineRound ErrCalc SineRound PropsSineRound PotAnyModel SpecPotAny RadAny RadPot CalProofs PropsRad PotAny PropsPotAny RadAnyModel SpecRadAny PropsRadAny
  SpecFiveRound SpecCourseRound SpecScaleRound ScaleModel ScaleRound PropsScaleRound PropsShift SpecClear PropsClear SsdModel SpecSsd.
Import ListNotations.
Open Scope Z_scope.

(** the same function of the numbers is what the exact model computes *)
Theorem C136_same_formula e d (st : sun_table) pot ps ps2 mc :
  disaggregate_radiation e d (Some st) (Some pot) "pot_rad_via_ssd" ps ps2 mc
  = rad_ssd_with nanmean e d (map (fun p => (fst p, daylength (snd p))) st) pot (any_of ps).
Proof.
  unfold disaggregate_radiation, rad_ssd_with, ssd_daily. cbn [String.eqb Ascii.eqb Bool.eqb orb negb].
  destruct (hourly_index e (f_index d)) as [hours|]; [|reflexivity]. cbn [bind].
  destruct (fcol "ssd" d) as [ssd|]; [|reflexivity]. cbn [bind].
  set (pd := resample us_day nanmean pot).
  assert (E : mapM (fun p => let* s := value_at ssd (fst p) in let* q := value_at pd (fst p) in Ok (fst p, (s, snd p, q)))
      (filter (fun p => (snd p >? n0)%num) (map (fun p => (fst p, daylength (snd p))) st))
    = mapM (fun p => let* s := at_label ssd (fst p) in let* q := at_label pd (fst p) in Ok (fst p, (s, daylength (snd p), q)))
      (filter (fun p => (daylength (snd p) >? n0)%num) st)).
  { induction st as [|[t r] st IH]; [reflexivity|]. cbn [map filter fst snd]. destruct (daylength r >? n0)%num; [|exact IH].
    cbn [mapM fst snd]. rewrite IH. reflexivity. }
  rewrite <- E. clear E. set (X := mapM _ (filter _ (map _ st))). change (mapM _ (filter _ (map _ st))) with X.
  destruct X as [rows|]; [|reflexivity]. cbn [bind]. rewrite C124_same_angstroem.
  destruct (angstroem_any (any_of ps) rows); reflexivity.
Qed.
Print Assumptions C136_same_formula.

Section Generic.
  Context {T : Type} {N : Num T}.
  Lemma rad_ssd_days mean e (d : dframe T) d0 ssd dls pot ps (F : Z -> T * T) : ssd <> [] -> f_index d = daily_index d0 (length ssd) ->
    assoc "ssd" (f_cols d) = Some ssd -> length dls = length ssd -> map fst pot = hours_index d0 (length ssd) ->
    (forall i l, nth_error dls i = Some l -> (l >? n0)%num = true -> values_at ps ((d0 + Z.of_nat i) * us_day) = Ok (F (d0 + Z.of_nat i))) ->
    exists out, rad_ssd_with mean e d (daily d0 dls) pot ps = Ok out /\ map fst out = hours_index d0 (length ssd) /\
      forall i s l, nth_error ssd i = Some s -> nth_error dls i = Some l ->
        let day := d0 + Z.of_nat i in let p := values_on day pot in
        values_on day out = map (fun x => cut_small (x / mean p *
          (if (l >? n0)%num then angstroem_value s l (mean p) (fst (F day)) (snd (F day)) else n0))%num) p.
  Proof.
    intros NE FI C LD EP HF. unfold rad_ssd_with. rewrite FI. destruct (length ssd) as [|n] eqn:EL; [destruct ssd; [contradiction|discriminate]|].
    unfold hourly_index. rewrite hourly_index_daily. cbn [bind]. unfold fcol. rewrite C, FI, <- EL. cbn [bind].
    change (combine (daily_index d0 (length ssd)) ssd) with (daily d0 ssd).
    rewrite EL. rewrite (resample_hours mean d0 (S n) pot EP), <- daily_seq.
    set (pm := fun i => mean (values_on (d0 + Z.of_nat i) pot)). change (map (fun i => mean (values_on (d0 + Z.of_nat i) pot)) (seq 0 (S n))) with (map pm (seq 0 (S n))).
    set (P := fun l => (l >? n0)%num).
    set (row := fun t (l : T) => (nth (Z.to_nat (date_of t - d0)) ssd n_nan, l, pm (Z.to_nat (date_of t - d0)))).
    set (G := fun t l => match row t l with (s, l, q) => angstroem_value s l q (fst (F (date_of t))) (snd (F (date_of t))) end).
    assert (LAB : forall p, In p (daily d0 dls) -> exists i, nth_error dls i = Some (snd p) /\ fst p = (d0 + Z.of_nat i) * us_day).
    { intros p Hp. apply In_nth_error in Hp. destruct Hp as (i & Hp). exists i.
      assert (Hi : (i < length dls)%nat) by (rewrite <- (daily_length d0 dls); apply nth_error_Some; congruence).
      rewrite (daily_nth_error d0 dls i) in Hp. destruct (nth_error dls i) as [l|] eqn:E; [|discriminate]. cbn [option_map] in Hp. injection Hp as <-. split; reflexivity. }
    assert (NTH : forall i, Z.to_nat (date_of ((d0 + Z.of_nat i) * us_day) - d0) = i) by (intro i; rewrite day_start_date; lia).
    unfold ssd_daily.
    rewrite (mapM_Ok _ (fun p => (fst p, row (fst p) (snd p)))).
    2:{ intros p Hp. apply filter_In in Hp as [Hp _]. destruct (LAB p Hp) as (i & Hi & E). rewrite E.
        assert (Li : (i < length dls)%nat) by (apply nth_error_Some; congruence).
        rewrite value_at_daily by lia. cbn [bind].
        rewrite value_at_daily by (rewrite map_length, seq_length; lia). cbn [bind]. unfold row. rewrite NTH. do 3 f_equal.
        rewrite (nth_indep _ n_nan (pm O)) by (rewrite map_length, seq_length; lia). rewrite (map_nth pm), seq_nth by lia. reflexivity. }
    cbn [bind]. unfold angstroem_any. rewrite TempProofs.mapM_map.
    rewrite (mapM_Ok _ (fun p => (fst p, G (fst p) (snd p)))).
    2:{ intros p Hp. apply filter_In in Hp as [Hp Pp]. destruct (LAB p Hp) as (i & Hi & E). unfold G, row. rewrite E, (HF i _ Hi Pp). cbn [bind].
        rewrite day_start_date. reflexivity. }
    cbn [bind].
    set (gl := map (fun i => let l := nth i dls n_nan in if (l >? n0)%num then angstroem_value (nth i ssd n_nan) l (pm i) (fst (F (d0 + Z.of_nat i))) (snd (F (d0 + Z.of_nat i))) else n0) (seq 0 (S n))).
    assert (EV : map (fun t => (t, match lookup t (map (fun p => (fst p, G (fst p) (snd p))) (filter (fun p => (snd p >? n0)%num) (daily d0 dls))) with Some v => v | None => n0 end)) (daily_index d0 (S n))
      = daily d0 gl).
    { unfold gl. rewrite daily_seq. unfold daily_index, grid. rewrite map_map. apply map_ext_in. intros i Hi. apply in_seq in Hi.
      replace (d0 * us_day + Z.of_nat i * us_day) with ((d0 + Z.of_nat i) * us_day) by ring. f_equal.
      destruct (nth_error dls i) as [l|] eqn:E; [|apply nth_error_None in E; lia].
      pose proof (lookup_filter_daily P G dls d0 i l E) as LF. unfold P at 1 in LF. rewrite LF.
      rewrite (nth_error_nth dls i n_nan E). cbv zeta. unfold P, G, row. rewrite NTH, day_start_date. destruct (l >? n0)%num; reflexivity. }
    rewrite EV.
    assert (LG : length gl = S n) by (unfold gl; rewrite map_length, seq_length; reflexivity).
    unfold index. rewrite daily_fst, daily_has_dup. unfold daily_index. rewrite grid_increasing by (unfold us_day; lia). cbn [orb negb].
    unfold pm. rewrite daily_seq, <- (resample_hours mean d0 (S n) pot EP).
    eexists. split; [reflexivity|]. split; [unfold scale_to; rewrite map_map; cbn [fst]; exact EP|].
    intros i s l Hs Hl.
    assert (Hi : (i < S n)%nat) by (rewrite <- EL; apply nth_error_Some; congruence).
    apply scale_to_day with (n := S n); [exact EP|exact LG|].
    unfold gl. rewrite nth_error_map, (nth_error_nth' (seq 0 (S n)) i O) by (rewrite seq_length; exact Hi). rewrite seq_nth by exact Hi. cbn [Nat.add option_map].
    rewrite (nth_error_nth dls i n_nan Hl), (nth_error_nth ssd i n_nan Hs). reflexivity.
  Qed.
End Generic.
Open Scope R_scope.

Lemma positive_day l : duration l -> (0 <? l)%float = true.
Proof.
  intro H. destruct (duration_spec l H) as [F [B _]]. destruct (fltb_correct 0%float l ffin_zero F) as [|H0]; [reflexivity|]. pose proof fv_0. lra.
Qed.
Lemma amount_intro x : ffin x -> 0 <= fval x <= 1048576 -> SpecRadAny.amount x.
Proof.
  intros F [A B]. unfold SpecRadAny.amount. destruct lits as (L0 & _ & _ & L1 & _). apply andb_true_iff.
  split; [apply (leb_true 0%float x ffin_zero F)|apply (leb_true x 0x1p20%float F eq_refl)]; lra.
Qed.
Lemma intensity_intro x : ffin x -> 0 <= fval x <= 4194304 -> intensity x.
Proof.
  intros F [A B]. unfold intensity. apply andb_true_iff. assert (F4 : ffin 0x1p400%float) by reflexivity.
  split; [apply (leb_true 0%float x ffin_zero F); pose proof fv_0; lra|]. apply (leb_true _ _ F F4).
  assert (V4 : fval 0x1p400%float = bpow radix2 400) by (unfold fval; vm_compute; lra). rewrite V4.
  apply Rle_trans with (bpow radix2 22); [change (bpow radix2 22) with 4194304; lra|apply bpow_le; lia].
Qed.
Lemma tiny_300 : 1 / 10 ^ 300 <= 1 / 10 ^ 14 * / 10 ^ 100.
Proof.
  unfold Rdiv. rewrite !Rmult_1_l, <- Rinv_mult, <- pow_add. apply Rinv_le; [apply pow_lt; lra|]. apply Rle_pow; [lra|lia].
Qed.
Lemma potential_mean mean p : means_within mean -> potential_day p ->
  ffin (mean p) /\ 0 <= fval (mean p) <= 1048576 /\ 0 < Rmean (map fval p) <= 524288 /\ / 10 ^ 100 <= Rmean (map fval p) /\
  Rabs (fval (mean p) - Rmean (map fval p)) <= 4 / 10 ^ 14 * Rmean (map fval p).
Proof.
  intros HM [LD TP]. destruct (lit_mean p LD) as [LM _]. destruct LD as (L & I & _).
  destruct (HM p L) as (F & N & E); [eapply Forall_impl; [|exact I]; intros x; apply intensity_moderate|]. apply ffin_spec in F.
  assert (B : Rabs (Rmean (map fval p)) <= 524288).
  { apply Rmean_bound; [destruct p; discriminate|]. intros x Hx. apply in_map_iff in Hx. destruct Hx as (y & <- & Hy).
    rewrite Forall_forall in I, TP. destruct (intensity_spec y (I y Hy)) as [Fy [Y0 _]]. rewrite Rabs_pos_eq by exact Y0.
    specialize (TP y Hy). cbv beta in TP. apply (leb_true y 0x1p19%float Fy eq_refl) in TP.
    assert (V : fval 0x1p19%float = 524288) by (unfold fval; vm_compute; lra). lra. }
  assert (P0 : 0 < / 10 ^ 100) by (apply Rinv_0_lt_compat, pow_lt; lra).
  set (M := Rmean (map fval p)) in *. apply Flocq.Core.Raux.Rabs_le_inv in B. pose proof tiny_300 as T3.
  assert (E' : Rabs (fval (mean p) - M) <= 4 / 10 ^ 14 * M) by (eapply Rle_trans; [exact E|]; lra).
  split; [exact F|]. split; [|split; [lra|split; [exact LM|exact E']]]. apply Flocq.Core.Raux.Rabs_le_inv in E'. lra.
Qed.

(** the daily value, from the exact mean of the potential values *)
Lemma ssd_value mean p a b s l : means_within mean -> potential_day p -> sunny a b s l ->
  let g := angstroem_value s l (mean p) a b in let k := passing a b s l in let M := Rmean (map fval p) in
  intensity g /\ 0 <= k <= 2 /\ Rabs (fval g - k * M) <= 1 / 10 ^ 13 * M.
Proof.
  intros HM HP (Ha & Hb & Hs & Hl & SL) g k M.
  destruct (potential_mean mean p HM HP) as (F & [N B] & [M0 M1] & M2 & E). fold M in M0, M1, M2, E.
  pose proof (amount_intro _ F (conj N B)) as AP.
  destruct (angstroem_error a b s l (mean p) Ha Hb Hs Hl AP SL) as [FV EV]. pose proof (angstroem_nonneg a b s l (mean p) Ha Hb Hs Hl AP SL) as N0.
  fold g in FV, EV, N0.
  destruct (fraction_spec a Ha) as [_ Ra], (fraction_spec b Hb) as [_ Rb], (amount_spec s Hs) as [Fs Rs], (duration_spec l Hl) as [Fl Rl].
  apply (leb_true _ _ Fs Fl) in SL.
  assert (Q : 0 <= fval s / fval l <= 1).
  { split; [apply Rmult_le_pos; [lra|left; apply Rinv_0_lt_compat; lra]|]. apply Rmult_le_reg_r with (fval l); [lra|]. unfold Rdiv. rewrite Rmult_assoc, Rinv_l by lra. lra. }
  assert (K : 0 <= k <= 2) by (unfold k, passing; nra).
  replace (fval a + fval b * fval s / fval l) with k in EV by (unfold k, passing, Rdiv; ring).
  assert (T3 : 1 / 10 ^ 300 <= 1 / 10 ^ 14 * M) by (eapply Rle_trans; [exact tiny_300|]; lra).
  set (P := fval (mean p)) in *. clearbody P. apply Flocq.Core.Raux.Rabs_le_inv in E, EV.
  assert (KP : Rabs (k * P - k * M) <= 8 / 10 ^ 14 * M) by (rewrite <- Rmult_minus_distr_l, Rabs_mult, (Rabs_pos_eq k) by lra; assert (Rabs (P - M) <= 4 / 10 ^ 14 * M) by (apply Rabs_le; lra); pose proof (Rabs_pos (P - M)); nra).
  apply Flocq.Core.Raux.Rabs_le_inv in KP.
  assert (R : Rabs (fval g - k * M) <= 1 / 10 ^ 13 * M) by (apply Rabs_le; lra).
  split; [|split; [exact K|exact R]]. apply intensity_intro; [exact FV|]. split; [exact N0|].
  apply Flocq.Core.Raux.Rabs_le_inv in R. assert (k * M <= 2 * 524288) by (apply Rmult_le_compat; lra). lra.
Qed.

(** ** any potential radiation *)
Theorem C136_via_ssd mean e (d : dframe float) d0 ssd dls pot ps :
  means_within mean -> ssd <> [] -> f_index d = daily_index d0 (length ssd) -> assoc "ssd" (f_cols d) = Some ssd ->
  length dls = length ssd -> map fst pot = hours_index d0 (length ssd) ->
  (forall i l, nth_error dls i = Some l -> (0 <? l)%float = true -> exists a b, in_force ps (month_of_day (d0 + Z.of_nat i)) a b) ->
  exists out, rad_ssd_with mean e d (daily d0 dls) pot ps = Ok out /\ map fst out = hours_index d0 (length ssd) /\
    forall i s l, nth_error ssd i = Some s -> nth_error dls i = Some l ->
      let day := (d0 + Z.of_nat i)%Z in let p := values_on day pot in potential_day p ->
      (forall a b, in_force ps (month_of_day day) a b -> sunny a b s l ->
        exists g, intensity g /\ Rabs (fval g - passing a b s l * Rmean (map fval p)) <= 1 / 10 ^ 13 * Rmean (map fval p) /\
          scaled_to p g (values_on day out)) /\
      ((0 <? l)%float = false -> length (values_on day out) = 24%nat /\ Forall (fun v => (v =? 0)%float = true) (values_on day out)).
Proof.
  intros HM NE FI C LD EP HF.
  set (F := fun day => match values_at ps (day * us_day) with Ok ab => ab | Err _ => (0%float, 0%float) end).
  assert (MO : forall day, month_of (day * us_day) = month_of_day day) by (intro day; unfold month_of; rewrite day_start_date; reflexivity).
  destruct (rad_ssd_days mean e d d0 ssd dls pot ps F NE FI C LD EP) as (out & E & EI & V).
  { intros i l Hl PL. destruct (HF i l Hl PL) as (a & b & IF). rewrite <- MO in IF. unfold F. rewrite (in_force_values ps _ a b IF). reflexivity. }
  exists out. split; [exact E|]. split; [exact EI|]. intros i s l Hs Hl day p PD. specialize (V i s l Hs Hl). cbv zeta in V. fold day in V. fold p in V.
  change ((l >? n0)%num) with ((0 <? l)%float) in V. split.
  - intros a b IF SU. pose proof (positive_day l (proj1 (proj2 (proj2 (proj2 SU))))) as PL. rewrite PL in V.
    rewrite <- MO in IF. unfold F in V. rewrite (in_force_values ps _ a b IF) in V. cbn [fst snd] in V.
    destruct (ssd_value mean p a b s l HM PD SU) as (IG & _ & R). cbv zeta in IG, R.
    exists (angstroem_value s l (mean p) a b). split; [exact IG|]. split; [exact R|]. rewrite V. apply day_scaled; [exact HM|exact (proj1 PD)|exact IG].
  - intro PL. rewrite PL in V. change (n0 : float) with 0%float in V.
    assert (I0 : intensity 0%float) by reflexivity.
    pose proof (day_scaled mean p 0%float HM (proj1 PD) I0) as (L & H & _). rewrite V. split; [exact L|].
    apply Forall_forall. intros v Hv. apply In_nth_error in Hv. destruct Hv as (h & Hv).
    destruct (nth_error p h) as [x|] eqn:Hx; [|rewrite nth_error_map, Hx in Hv; discriminate].
    apply (H h x v Hx Hv). right. reflexivity.
Qed.
Print Assumptions C136_via_ssd.

(** ** the potential radiation computed for flat ground without clouds *)
Lemma sunshine_close k M P g s v sky : M = Rmean sky -> 1 <= M -> Rabs (P - M) <= 1 / 10 ^ 9 -> 0 <= k <= 2 ->
  Rabs (g - k * P) <= 1 / 10 ^ 13 * P -> 0 <= s <= 24 * M -> clear_share sky g s v -> sunshine_hour k M s v.
Proof.
  intros EM M1 EP K EG [S0 S1] [F H]. rewrite <- EM in H. split; [exact F|].
  apply Flocq.Core.Raux.Rabs_le_inv in EP, EG.
  assert (KP : Rabs (k * P - k * M) <= 2 / 10 ^ 9) by (apply Rabs_le; split; nra). apply Flocq.Core.Raux.Rabs_le_inv in KP.
  assert (GM : Rabs (g - k * M) <= 3 / 10 ^ 9 * M) by (apply Rabs_le; lra).
  assert (KM : k * M <= 2 * M) by nra.
  assert (Q : 0 <= s / M <= 24).
  { split; [apply Rmult_le_pos; [exact S0|left; apply Rinv_0_lt_compat; lra]|]. apply Rmult_le_reg_r with M; [lra|]. unfold Rdiv. rewrite Rmult_assoc, Rinv_l by lra. lra. }
  assert (ES : s = s / M * M) by (field; lra). set (q := s / M) in *. clearbody q.
  assert (Y : Rabs (q * g - k * s) <= 72 / 10 ^ 9 * M).
  { rewrite ES. replace (q * g - k * (q * M)) with (q * (g - k * M)) by ring. rewrite Rabs_mult, (Rabs_pos_eq q) by lra. pose proof (Rabs_pos (g - k * M)). nra. }
  apply Flocq.Core.Raux.Rabs_le_inv in Y, GM.
  destruct H as [[Z0 H]|[Z0 H]]; [left|right]; (split; [exact Z0|]); [lra|]. apply Flocq.Core.Raux.Rabs_le_inv in H. apply Rabs_le. lra.
Qed.

Theorem C136_clear_sky mean sinf cosf asinf acosf e (d : dframe float) d0 ssd dls ps lon lat tz az :
  means_within mean -> good_sine sinf -> good_cosine cosf -> exact_at_0 sinf cosf -> bounded_by_1 sinf -> bounded_by_1 cosf ->
  degrees lon -> degrees lat -> zone tz ->
  ssd <> [] -> f_index d = daily_index d0 (length ssd) -> assoc "ssd" (f_cols d) = Some ssd -> length dls = length ssd ->
  (forall i l, nth_error dls i = Some l -> (0 <? l)%float = true -> exists a b, in_force ps (month_of_day (d0 + Z.of_nat i)) a b) ->
  let pot := potential_any np_pi sinf cosf asinf acosf (hours_index d0 (length ssd)) lon lat tz 0%float az 0%float in
  exists out, rad_ssd_with mean e d (daily d0 dls) pot ps = Ok out /\ map fst out = hours_index d0 (length ssd) /\
    forall i s l a b, nth_error ssd i = Some s -> nth_error dls i = Some l ->
      let day := (d0 + Z.of_nat i)%Z in let sky := sky_day day (fval lon) (fval lat) (fval tz) in
      in_force ps (month_of_day day) a b -> sunny a b s l ->
      Forall (fun x => is_nan x = false) (values_on day pot) -> 1 <= Rmean sky ->
      let k := passing a b s l in
      length (values_on day out) = 24%nat /\
      (forall h c v, nth_error sky h = Some c -> nth_error (values_on day out) h = Some v ->
         sunshine_hour k (Rmean sky) c v /\
         (sun_height (doy_of_day day) (Z.of_nat h) 0 (fval lon) (fval lat) (fval tz) <= - (1 / 10 ^ 12) -> (v =? 0)%float = true)) /\
      k * Rmean sky - 1 / 100 - 1 / 10 ^ 8 * Rmean sky <= Rmean (map fval (values_on day out)) <= k * Rmean sky + 1 / 10 ^ 8 * Rmean sky.
Proof.
  intros HM GS GC E0 BS BC HLo HLa HZ NE FI C LD HF pot.
  destruct (C136_via_ssd mean e d d0 ssd dls pot ps HM NE FI C LD) as (out & E & EI & V); [unfold pot, potential_any; rewrite map_map; apply map_id|exact HF|].
  exists out. split; [exact E|]. split; [exact EI|]. intros i s l a b Hs Hl day sky IF SU NN LM k.
  assert (Hi : (i < length ssd)%nat) by (apply nth_error_Some; congruence).
  specialize (V i s l Hs Hl). cbv zeta in V. fold day in V.
  assert (EV : values_on day pot = map (clear_pot sinf cosf asinf acosf day lon lat tz az) (seq 0 24)) by (unfold pot, day; apply pot_of_day; exact Hi).
  rewrite EV in NN, V.
  pose proof (day_lit sinf cosf asinf acosf GS GC E0 BS BC day lon lat tz az HLo HLa HZ NN LM) as LI.
  pose proof (day_means sinf cosf asinf acosf GS GC E0 BS BC day lon lat tz az HLo HLa HZ NN) as DM.
  assert (PD : potential_day (map (clear_pot sinf cosf asinf acosf day lon lat tz az) (seq 0 24))).
  { split; [exact LI|]. apply Forall_forall. intros x Hx. destruct LI as (_ & I & _). rewrite Forall_forall in I, NN.
    destruct (intensity_spec x (I x Hx)) as [Fx _]. apply (leb_true x 0x1p19%float Fx eq_refl).
    assert (V9 : fval 0x1p19%float = 524288) by (unfold fval; vm_compute; lra).
    pose proof (NN x Hx) as Nx. apply in_map_iff in Hx. destruct Hx as (h & <- & _).
    pose proof (hour_nonneg sinf cosf asinf acosf BS BC day lon lat tz az h Nx). lra. }
  destruct (V PD) as [V1 _]. destruct (V1 a b IF SU) as (g & IG & EG & SC). fold k in EG.
  set (p := map (clear_pot sinf cosf asinf acosf day lon lat tz az) (seq 0 24)) in *.
  destruct (day_clear sinf cosf asinf acosf GS GC E0 BS BC day lon lat tz az HLo HLa HZ NN LM g _ IG SC) as (L & H & MM).
  change (map _ (seq 0 24)) with sky in DM. change (map _ (seq 0 24)) with sky in H.
  destruct (ssd_value mean p a b s l HM PD SU) as (_ & K & _). fold k in K.
  split; [exact L|]. split.
  - intros h c v Hc Hv. destruct (H h c v Hc Hv) as [CS NI]. split; [|exact NI].
    apply (sunshine_close k (Rmean sky) (Rmean (map fval p)) (fval g) c v sky eq_refl LM DM K EG); [|exact CS].
    assert (Hh : (h < 24)%nat) by (rewrite <- L; apply nth_error_Some; congruence).
    assert (NS : Forall (fun x => 0 <= x) sky) by (unfold sky, sky_day; apply Forall_map, Forall_forall; intros j _; apply sky_range).
    pose proof (nth_error_In _ _ Hc) as Ic. split; [rewrite Forall_forall in NS; exact (NS c Ic)|].
    pose proof (Rsum_nonneg_ge sky NS c Ic) as G.
    assert (ES : 24 * Rmean sky = Rsum sky).
    { unfold Rmean, sky, sky_day. rewrite map_length, seq_length, INR_IZR_INZ. cbn [Z.of_nat Pos.of_succ_nat Pos.succ]. field. }
    lra.
  - set (M := Rmean sky) in *. set (P := Rmean (map fval p)) in *. clearbody M P. apply Flocq.Core.Raux.Rabs_le_inv in DM, EG.
    assert (KP : Rabs (k * P - k * M) <= 2 / 10 ^ 9) by (apply Rabs_le; split; nra). apply Flocq.Core.Raux.Rabs_le_inv in KP.
    assert (KM : k * M <= 2 * M) by nra. lra.
Qed.
Print Assumptions C136_clear_sky.

(** ** the hypotheses can be met: eight hours of sunshine on a day of twelve hours, with the usual parameters *)
Example C136_met :
  sunny 0.25%float 0.5%float 8%float 12%float /\ in_force (AScalar 0.25%float 0.5%float) 1 0.25%float 0.5%float /\
  passing 0.25%float 0.5%float 8%float 12%float = 7 / 12 /\ potential_day ex_sun.
Proof.
  split; [repeat split; reflexivity|]. split; [split; reflexivity|]. split.
  - unfold passing. assert (V1 : fval 0.25%float = / 4) by (unfold fval; vm_compute; lra). assert (V2 : fval 0.5%float = / 2) by (unfold fval; vm_compute; lra).
    assert (V3 : fval 8%float = 8) by (unfold fval; vm_compute; lra). assert (V4 : fval 12%float = 12) by (unfold fval; vm_compute; lra). rewrite V1, V2, V3, V4. lra.
  - split; [exact (proj1 C109_met)|]. repeat constructor.
Qed.
