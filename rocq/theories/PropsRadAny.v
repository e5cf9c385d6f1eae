(** Property C124: the daily radiation models and the random wind in binary64. *)
From Coq Require Import String ZArith List Bool Lia Reals Lra Floats.
From Flocq Require Import Core IEEE754.BinarySingleNaN IEEE754.PrimFloat.
From Verif Require Import Py Num Cal Series Trans UtilModel UtilModel2 Frame TempModel RadModel WindModel RadAnyModel SpecBase SpecUtil SpecSineRound TimeProofs IndexProofs
  DaysProofs CourseProofs TempProofs F64 CascadeFloat CascadeRound CourseRound ErrCalc PropsHumRound PropsSineRound SpecRadAny RadAny.
Import ListNotations.
Open Scope Z_scope.
Notation float := PrimFloat.float (only parsing).

(** ** the same functions of the numbers are what the exact model computes *)
Definition any_of (p : params) : model_params xr := match p with PScalar a b => AScalar a b | PMonthly la lb => AMonthly la lb end.
Theorem C124_same_angstroem ps rows : angstroem ps rows = angstroem_any (any_of ps) rows.
Proof. destruct ps; reflexivity. Qed.
Theorem C124_same_bristow ps tmin tmax pots : bristow_campbell ps tmin tmax pots = bristow_any xexp xpow nanmean (any_of ps) tmin tmax pots.
Proof. destruct ps; reflexivity. Qed.
Theorem C124_same_random e wind a b s draw :
  disaggregate_wind e wind "random" a b s draw = (let* r := random_any xln xpow e wind draw in Ok (WSeries (fst r), snd r)).
Proof. unfold disaggregate_wind, random_any. cbn [existsb String.eqb Ascii.eqb Bool.eqb orb negb]. destruct (distribute_equally e wind false); reflexivity. Qed.
Print Assumptions C124_same_angstroem.
Print Assumptions C124_same_bristow.
Print Assumptions C124_same_random.

(** ** Angstroem *)
Lemma in_force_values ps t a b : in_force ps (month_of t) a b -> values_at ps t = Ok (a, b).
Proof.
  destruct ps as [a' b'|la lb]; cbn [in_force values_at]; [intros [-> ->]; reflexivity|]. intros [HA HB]. rewrite entry_lookup in HA, HB.
  unfold month_value. rewrite HA. cbn [bind]. rewrite HB. reflexivity.
Qed.
Lemma angstroem_rows ps rows : (forall r, In r rows -> exists a b, in_force ps (month_of (fst r)) a b) ->
  exists out, angstroem_any ps rows = Ok out /\ map fst out = map fst rows /\
    forall i t s dl p a b, nth_error rows i = Some (t, (s, dl, p)) -> in_force ps (month_of t) a b -> nth_error out i = Some (t, angstroem_value s dl p a b).
Proof.
  unfold angstroem_any. match goal with |- context [mapM ?f rows] => set (g := f) end. induction rows as [|[t [[s dl] p]] rows IH]; intro H.
  - exists []. split; [reflexivity|]. split; [reflexivity|]. intros [|i]; discriminate.
  - destruct IH as (out & E & F & V); [intros r Hr; apply H; right; exact Hr|]. destruct (H _ (or_introl eq_refl)) as (a & b & HF). cbn [fst] in HF.
    exists ((t, angstroem_value s dl p a b) :: out). cbn [mapM].
    assert (G : g (t, (s, dl, p)) = Ok (t, angstroem_value s dl p a b)) by (unfold g; rewrite (in_force_values ps t a b HF); reflexivity).
    rewrite G. cbv beta iota delta [bind]. rewrite E. split; [reflexivity|].
    split; [cbn [map fst]; f_equal; exact F|]. intros [|i] t' s' dl' p' a' b' Hi HF'; [|exact (V i t' s' dl' p' a' b' Hi HF')].
    cbn [nth_error] in *. injection Hi as <- <- <- <-. apply in_force_values in HF, HF'. rewrite HF in HF'. injection HF' as <- <-. reflexivity.
Qed.

Theorem C124_angstroem ps rows : (forall r, In r rows -> exists a b, in_force ps (month_of (fst r)) a b) ->
  exists out, angstroem_any ps rows = Ok out /\ map fst out = map fst rows /\
    (forall i t s dl p a b, nth_error rows i = Some (t, (s, dl, p)) -> in_force ps (month_of t) a b ->
       fraction a -> fraction b -> amount s -> duration dl -> amount p -> (s <=? dl)%float = true ->
       exists v, nth_error out i = Some (t, v) /\ PrimFloat.is_finite v = true /\ (0 <=? v)%float = true /\
         (Rabs (fval v - (fval a + fval b * fval s / fval dl) * fval p) <= 1 / 10 ^ 15 * fval p + 1 / 10 ^ 300)%R) /\
    (forall i j t u s s' dl p p' a b v w, nth_error rows i = Some (t, (s, dl, p)) -> nth_error rows j = Some (u, (s', dl, p')) ->
       in_force ps (month_of t) a b -> in_force ps (month_of u) a b ->
       fraction a -> fraction b -> amount s -> amount s' -> duration dl -> amount p -> amount p' -> (s' <=? dl)%float = true ->
       (s <=? s')%float = true -> (p <=? p')%float = true -> nth_error out i = Some (t, v) -> nth_error out j = Some (u, w) -> (v <=? w)%float = true).
Proof.
  intro H. destruct (angstroem_rows ps rows H) as (out & E & F & V). exists out. split; [exact E|]. split; [exact F|]. split.
  - intros i t s dl p a b Hi HF Ha Hb Hs Hl Hp L. exists (angstroem_value s dl p a b). split; [exact (V i t s dl p a b Hi HF)|].
    destruct (angstroem_error a b s dl p Ha Hb Hs Hl Hp L) as [FV EV]. split; [apply ffin_spec, FV|]. split; [|exact EV].
    apply leb_true; [reflexivity|exact FV|]. rewrite (proj1 lits). exact (angstroem_nonneg a b s dl p Ha Hb Hs Hl Hp L).
  - intros i j t u s s' dl p p' a b v w Hi Hj HF HF' Ha Hb Hs Hs' Hl Hp Hp' L' SS PP Hv Hw.
    rewrite (V i t s dl p a b Hi HF) in Hv. rewrite (V j u s' dl p' a b Hj HF') in Hw. apply (f_equal (option_map snd)) in Hv, Hw. cbn [option_map snd] in Hv, Hw.
    assert (EV : v = angstroem_value s dl p a b) by congruence. assert (EW : w = angstroem_value s' dl p' a b) by congruence. clear Hv Hw. subst v w.
    assert (L : (s <=? dl)%float = true).
    { destruct (amount_spec s Hs) as [F1 _], (amount_spec s' Hs') as [F2 _], (duration_spec dl Hl) as [F3 _]. apply leb_true in SS; [|exact F1|exact F2]. apply leb_true in L'; [|exact F2|exact F3].
      apply leb_true; [exact F1|exact F3|]. lra. }
    apply leb_true; [apply (angstroem_shape a b s dl p); assumption|apply (angstroem_shape a b s' dl p'); assumption|].
    apply angstroem_mono; assumption.
Qed.
Print Assumptions C124_angstroem.

(** a day of full sunshine can exceed the potential radiation although the parameters add up to 1: 0.1 and 0.9, 6.1 hours, 300 W/m2 *)
Theorem C124_angstroem_refuted : exists a b s p v, (a + b =? 1)%float = true /\ fraction a /\ fraction b /\ duration s /\ amount p /\
  angstroem_any (AScalar a b) [(19000 * us_day, (s, s, p))] = Ok [(19000 * us_day, v)] /\ (p <? v)%float = true.
Proof.
  exists 0x1.999999999999ap-4%float, 0x1.ccccccccccccdp-1%float, 0x1.8666666666666p+2%float, 300%float.
  exists (angstroem_value 0x1.8666666666666p+2%float 0x1.8666666666666p+2%float 300%float 0x1.999999999999ap-4%float 0x1.ccccccccccccdp-1%float).
  repeat split; vm_compute; reflexivity.
Qed.
Print Assumptions C124_angstroem_refuted.

(** ** Bristow and Campbell *)
Lemma month_ranges (tmin tmax : list float) d0 m x : In x (map snd (filter (fun p => month_of (fst p) =? m) (daily d0 (map (range_of tmin tmax) (seq 0 (length tmin)))))) <->
  exists j, (j < length tmin)%nat /\ month_of_day (d0 + Z.of_nat j) = m /\ x = day_range (nth j tmin n_nan) (next_or_own n_nan tmin j) (nth j tmax n_nan).
Proof.
  rewrite daily_seq, in_map_iff. split.
  - intros (p & <- & Hp). apply filter_In in Hp as [Hp HM]. apply in_map_iff in Hp as (j & <- & Hj). apply in_seq in Hj. cbn [fst snd] in *.
    apply Z.eqb_eq in HM. unfold month_of in HM. rewrite day_start_date in HM. exists j. split; [lia|]. split; [exact HM|reflexivity].
  - intros (j & Hj & HM & ->). exists ((d0 + Z.of_nat j) * us_day, range_of tmin tmax j). split; [reflexivity|]. apply filter_In. split; [apply in_map_iff; exists j; split; [reflexivity|apply in_seq; lia]|].
    cbn [fst]. unfold month_of. rewrite day_start_date. apply Z.eqb_eq, HM.
Qed.

Theorem C124_bristow expf powf mean ps (fa fb : Z -> float) d0 (tmin tmax pots : list float) :
  exp_like expf -> pow_like powf -> mean_like mean ->
  tmin <> [] -> length tmax = length tmin -> length pots = length tmin ->
  (forall i, (i < length tmin)%nat -> in_force ps (month_of_day (d0 + Z.of_nat i)) (fa (month_of_day (d0 + Z.of_nat i))) (fb (month_of_day (d0 + Z.of_nat i)))) ->
  let lo i := nth i tmin nan in let next i := next_or_own nan tmin i in let hi i := nth i tmax nan in
  let settled m := fraction (fa m) /\ exponent (fb m) /\
    forall j, (j < length tmin)%nat -> month_of_day (d0 + Z.of_nat j) = m ->
      (PrimFloat.is_nan (lo j) = true \/ PrimFloat.is_nan (next j) = true \/ PrimFloat.is_nan (hi j) = true) \/ temperatures (lo j) (next j) (hi j) in
  exists vs, bristow_any expf powf mean ps (daily d0 tmin) (daily d0 tmax) (daily d0 pots) = Ok (daily d0 vs) /\ length vs = length tmin /\
    (forall i p v, let m := month_of_day (d0 + Z.of_nat i) in settled m -> temperatures (lo i) (next i) (hi i) ->
       nth_error pots i = Some p -> ((0 <=? p) && (p <? infinity))%float = true -> nth_error vs i = Some v ->
       PrimFloat.is_finite v = true /\ (0 <=? v)%float = true /\ (v <=? fa m * p)%float = true /\ (fa m * p <=? p)%float = true /\
       ((day_range (lo i) (next i) (hi i) =? 0)%float = true -> (v =? 0)%float = true)) /\
    (forall i j p q v w, let m := month_of_day (d0 + Z.of_nat i) in month_of_day (d0 + Z.of_nat j) = m -> settled m ->
       temperatures (lo i) (next i) (hi i) -> temperatures (lo j) (next j) (hi j) ->
       nth_error pots i = Some p -> nth_error pots j = Some q -> (0 <=? p)%float = true -> (p <=? q)%float = true -> (q <? infinity)%float = true ->
       nth_error vs i = Some v -> nth_error vs j = Some w ->
       (day_range (lo i) (next i) (hi i) <=? day_range (lo j) (next j) (hi j))%float = true -> (v <=? w)%float = true).
Proof.
  intros HE HW HM NE L1 L2 HF lo next hi settled.
  set (F := fun i => let m := month_of_day (d0 + Z.of_nat i) in
              bristow_value expf powf (fa m) (fb m) (bristow_B expf (month_mean mean tmin tmax d0 m)) (range_of tmin tmax i) (nth i pots n_nan)).
  exists (map F (seq 0 (length tmin))). split.
  { apply (bristow_daily expf powf mean d0 tmin tmax pots ps fa fb NE L1 L2). intros i Hi. apply in_force_values. unfold month_of. rewrite day_start_date. apply HF, Hi. }
  split; [rewrite map_length; apply seq_length|].
  assert (RG : forall i, range_of tmin tmax i = day_range (lo i) (next i) (hi i)) by reflexivity.
  assert (AV : forall i, (i < length tmin)%nat -> settled (month_of_day (d0 + Z.of_nat i)) -> temperatures (lo i) (next i) (hi i) ->
             let a := month_mean mean tmin tmax d0 (month_of_day (d0 + Z.of_nat i)) in ((0 <=? a) && (a <=? 0x1p100))%float = true).
  { intros i Hi (_ & _ & S) T. apply HM.
    - apply Forall_forall. intros x Hx. apply month_ranges in Hx as (j & Hj & EM & ->). destruct (S j Hj EM) as [N|K]; [left; apply nan_range, N|right; apply range_base, K].
    - exists (day_range (lo i) (next i) (hi i)). split; [apply month_ranges; exists i; split; [exact Hi|]; split; reflexivity|].
      pose proof (range_base _ _ _ T) as RB. apply base_spec in RB as [FR _]. pose proof (finite_valid _ FR) as K. change (n_isnan (day_range (lo i) (next i) (hi i))) with (f64_isnan (day_range (lo i) (next i) (hi i))) in K.
      rewrite isnan_spec in K. exact K. }
  assert (GET : forall i v, nth_error (map F (seq 0 (length tmin))) i = Some v -> (i < length tmin)%nat /\ v = F i).
  { intros i v Hv. assert (Hi : (i < length tmin)%nat) by (rewrite <- (seq_length (length tmin) 0), <- (map_length F); apply nth_error_Some; congruence). split; [exact Hi|].
    rewrite nth_error_map, (nth_error_nth' (seq 0 (length tmin)) i O) in Hv by (rewrite seq_length; exact Hi). rewrite seq_nth in Hv by exact Hi. cbn [Nat.add option_map] in Hv. congruence. }
  assert (POS : forall p : float, (0 <=? p)%float = true -> (p <? infinity)%float = true -> fnn p).
  { intros p P1 P2. assert (FP : ffin p).
    { revert P1 P2. rewrite leb_equiv, ltb_equiv. unfold ffin. destruct (Prim2B p) as [s|s| |s k e K]; try reflexivity; cbn; try discriminate; destruct s; discriminate. }
    split; [exact FP|]. apply leb_true in P1; [|reflexivity|exact FP]. rewrite (proj1 lits) in P1. exact P1. }
  split.
  - intros i p v m ST T Hp PP Hv. destruct (GET i v Hv) as [Hi ->]. apply andb_true_iff in PP as [P1 P2]. pose proof (POS p P1 P2) as FP.
    pose proof (AV i Hi ST T) as A. cbv zeta in A. destruct ST as (SA & SC & _). pose proof (range_base _ _ _ T) as RB.
    unfold F. cbv zeta. fold m. fold m in A. assert (EP : nth i pots n_nan = p) by (apply nth_error_nth; exact Hp). rewrite EP, RG, bristow_is.
    destruct (bristow_shape expf powf HE HW (fa m) (fb m) _ SA SC A _ p RB FP) as (FV & _ & U1 & U2 & FU).
    set (v := (_ * _ * p)%float) in *. 
    split; [apply ffin_spec, FV|]. split; [apply leb_true; [reflexivity|apply FV|rewrite (proj1 lits); apply FV]|].
    split; [apply leb_true; [apply FV|exact FU|exact U1]|]. split; [apply leb_true; [exact FU|apply FP|exact U2]|].
    intro Z. apply eqb_true; [apply FV|reflexivity|]. rewrite (proj1 lits). exact (bristow_zero expf powf HE HW (fa m) (fb m) _ SA SC A _ p Z RB FP).
  - intros i j p q v w m EM ST T T' Hp Hq P1 PQ Q2 Hv Hw RR. destruct (GET i v Hv) as [Hi ->], (GET j w Hw) as [Hj ->].
    assert (FQ : fnn q).
    { apply POS; [|exact Q2]. revert P1 PQ Q2. rewrite !leb_equiv, ltb_equiv. destruct (Prim2B p) as [s|s| |s k e K], (Prim2B q) as [s'|s'| |s' k' e' K']; cbn; try discriminate; destruct s, s'; try discriminate; reflexivity. }
    assert (FP : fnn p).
    { apply POS; [exact P1|]. destruct FQ as [FQ _]. assert (FP : ffin p) by exact (between_finite 0%float p q eq_refl (proj1 (ffin_spec q) FQ) P1 PQ).
      rewrite ltb_equiv. unfold ffin in FP. destruct (Prim2B p) as [s|s| |s k e K]; try discriminate; reflexivity. }
    pose proof (AV i Hi ST T) as A. cbv zeta in A. destruct ST as (SA & SC & _). pose proof (range_base _ _ _ T) as RB. pose proof (range_base _ _ _ T') as RB'.
    unfold F. cbv zeta. rewrite EM. fold m. fold m in A. assert (EP : nth i pots n_nan = p) by (apply nth_error_nth; exact Hp). assert (EQ : nth j pots n_nan = q) by (apply nth_error_nth; exact Hq).
    rewrite EP, EQ, !RG, !bristow_is.
    destruct (bristow_shape expf powf HE HW (fa m) (fb m) _ SA SC A _ p RB FP) as (FV & _). destruct (bristow_shape expf powf HE HW (fa m) (fb m) _ SA SC A _ q RB' FQ) as (FV' & _).
    apply leb_true; [apply FV|apply FV'|]. apply leb_true in PQ; [|apply FP|apply FQ]. exact (bristow_mono expf powf HE HW (fa m) (fb m) _ SA SC A _ _ p q RB RB' FP FQ RR PQ).
Qed.
Print Assumptions C124_bristow.

(** ** random wind *)
Theorem C124_random lnf powf e d0 (w : list float) draw : accurate_ln lnf -> accurate_pow powf -> w <> [] ->
  exists out, random_any lnf powf e (daily d0 w) draw = Ok (out, (24 * length w)%nat) /\ map fst out = hours_index d0 (length w) /\
    forall i x, nth_error w i = Some x -> amount x -> length (values_on (d0 + Z.of_nat i) out) = 24%nat /\
      forall h v, nth_error (values_on (d0 + Z.of_nat i) out) h = Some v -> 
        let u := draw (24 * i + h)%nat in drawn u ->
        let r := (fval x * Rpower (- ln (fval u)) (3 / 10))%R in
        PrimFloat.is_finite v = true /\ (0 <=? v)%float = true /\ (Rabs (fval v - r) <= 1 / 10 ^ 14 * r + 1 / 10 ^ 300)%R /\ (fval v <= 3 * fval x + 1 / 10 ^ 300)%R.
Proof.
  intros HL HP NE. destruct (random_function lnf powf e d0 w draw nan_any NE) as (out & E & F & V). exists out. split; [exact E|]. split; [exact F|].
  intros i x Hx AX. destruct (amount_spec x AX) as [FX RX]. pose proof (V i x Hx (finite_valid x FX)) as EV. rewrite EV. split; [rewrite map_length, seq_length; reflexivity|].
  intros h v Hv u DU r. assert (Hh : (h < 24)%nat) by (rewrite <- (seq_length 24 0), <- (map_length (fun h => random_value lnf powf x (draw (24 * i + h)%nat))); apply nth_error_Some; congruence).
  rewrite nth_error_map, (nth_error_nth' (seq 0 24) h O) in Hv by (rewrite seq_length; exact Hh). rewrite seq_nth in Hv by exact Hh. cbn [Nat.add option_map] in Hv.
  assert (EX : v = random_value lnf powf x u) by (unfold u; congruence). rewrite EX. destruct (random_spec lnf powf HL HP x u AX DU) as (FV & P & R & U).
  split; [apply ffin_spec, FV|]. split; [apply leb_true; [reflexivity|exact FV|rewrite (proj1 lits); exact P]|]. split; assumption.
Qed.
Print Assumptions C124_random.

(** (deviation) a draw of 0, which numpy can deliver, gives an infinite speed, or no number where the wind is calm *)
Theorem C124_random_zero lnf powf e d0 (w : list float) draw : at_borders lnf powf -> w <> [] ->
  exists out, random_any lnf powf e (daily d0 w) draw = Ok (out, (24 * length w)%nat) /\
    forall i x h v, nth_error w i = Some x -> nth_error (values_on (d0 + Z.of_nat i) out) h = Some v -> (draw (24 * i + h)%nat =? 0)%float = true ->
      ((0 <? x)%float = true -> v = infinity) /\ ((x =? 0)%float = true -> PrimFloat.is_nan v = true).
Proof.
  intros HB NE. destruct (random_function lnf powf e d0 w draw nan_any NE) as (out & E & F & V). exists out. split; [exact E|].
  intros i x h v Hx Hv Z.
  assert (K : n_isnan x = false -> ((0 <? x)%float = true -> v = infinity) /\ ((x =? 0)%float = true -> PrimFloat.is_nan v = true)).
  { intro NX. pose proof (V i x Hx NX) as EV. rewrite EV in Hv.
    assert (Hh : (h < 24)%nat) by (rewrite <- (seq_length 24 0), <- (map_length (fun h => random_value lnf powf x (draw (24 * i + h)%nat))); apply nth_error_Some; congruence).
    rewrite nth_error_map, (nth_error_nth' (seq 0 24) h O) in Hv by (rewrite seq_length; exact Hh). rewrite seq_nth in Hv by exact Hh. cbn [Nat.add option_map] in Hv.
    assert (EX : v = random_value lnf powf x (draw (24 * i + h)%nat)) by congruence. rewrite EX. apply random_zero_draw; assumption. }
  assert (NN : (0 <? x)%float = true \/ (x =? 0)%float = true -> n_isnan x = false).
  { change (n_isnan x) with (f64_isnan x). rewrite isnan_spec, is_nan_equiv, ltb_equiv, eqb_equiv. destruct (Prim2B x); cbn; try reflexivity. intros [?|?]; discriminate. }
  split; intro H; apply K; auto.
Qed.
Print Assumptions C124_random_zero.

(** ** the hypotheses can be met: the correctly rounded functions, a plain mean, concrete days *)
Open Scope R_scope.
Lemma float_of_R_any r x : Rabs r <= fval x -> ffin (float_of_R r) /\ fval (float_of_R r) = rnd r.
Proof.
  intro H. unfold float_of_R, ffin, fval. rewrite Prim2B_B2Prim.
  pose proof (binary_normalize_correct FloatOps.prec FloatOps.emax Hprec Hmax mode_NE (ZnearestE (scaled_mantissa radix2 fexp64 r)) (cexp radix2 fexp64 r) false) as C. cbv zeta in C.
  change (F2R {| Fnum := ZnearestE (scaled_mantissa radix2 fexp64 r); Fexp := cexp radix2 fexp64 r |}) with (rnd r) in C.
  cbn [round_mode] in C. rewrite (round_generic radix2 fexp64 ZnearestE (rnd r)) in C by (apply generic_format_round; [exact (fexp_correct FloatOps.prec FloatOps.emax eq_refl)|apply valid_rnd_N]).
  assert (B : Rabs (rnd r) < bpow radix2 FloatOps.emax).
  { apply Flocq.Core.Raux.Rabs_le_inv in H. apply (abs_mid r x); apply H. }
  rewrite Rlt_bool_true in C by exact B. destruct C as (A1 & A2 & _). split; [exact A2|exact A1].
Qed.
Lemma at_most_0 x : (x <=? 0)%float = true -> x = neg_infinity \/ (ffin x /\ fval x <= 0).
Proof.
  intro H. destruct (PrimFloat.is_finite x) eqn:F.
  - right. apply ffin_spec in F. split; [exact F|]. apply leb_true in H; [|exact F|reflexivity]. rewrite (proj1 lits) in H. exact H.
  - left. apply Prim2B_inj. revert H F. rewrite leb_equiv, is_finite_equiv. destruct (Prim2B x) as [s|s| |s m e K]; cbn; try discriminate; destruct s; try discriminate; reflexivity.
Qed.
Lemma not_infinite x : ffin x -> (x =? neg_infinity)%float = false /\ (x =? infinity)%float = false.
Proof. unfold ffin. rewrite !eqb_equiv. destruct (Prim2B x) as [s|s| |s m e K]; try discriminate; intros _; split; try reflexivity; destruct s; reflexivity. Qed.

Definition rounded_exp (x : float) : float := if (x =? neg_infinity)%float then 0%float else float_of_R (exp (fval x)).
Definition rounded_ln (x : float) : float := if (x =? 0)%float then neg_infinity else float_of_R (ln (fval x)).
Definition rounded_pow (x c : float) : float :=
  if (x =? infinity)%float then infinity else float_of_R (if Req_EM_T (fval x) 0 then 0 else Rpower (fval x) (fval c)).
Lemma exp_val x : ffin x -> fval x <= 0 -> ffin (rounded_exp x) /\ fval (rounded_exp x) = rnd (exp (fval x)) /\ 0 <= fval (rounded_exp x) <= 1.
Proof.
  intros F L. unfold rounded_exp. rewrite (proj1 (not_infinite x F)). destruct lits as (_ & L1 & _).
  assert (E : 0 <= exp (fval x) <= 1). { split; [left; apply exp_pos|]. rewrite <- exp_0. destruct L as [L|L]; [left; apply exp_increasing, L|rewrite L; lra]. }
  destruct (float_of_R_any (exp (fval x)) 1%float) as [FE VE]; [rewrite L1, Rabs_pos_eq; lra|]. split; [exact FE|]. split; [exact VE|]. rewrite VE. split; [apply rnd_nonneg, E|].
  rewrite <- L1. apply rnd_le_fval. rewrite L1. apply E.
Qed.
Example C124_exp_exists : exp_like rounded_exp.
Proof.
  destruct lits as (L0 & L1 & _). repeat split.
  - intros x H. apply at_most_0 in H as [->|[F L]]; [vm_compute; reflexivity|]. destruct (exp_val x F L) as (FE & _ & R). unfold fraction. rewrite andb_true_iff, !leb_true by (reflexivity || exact FE). rewrite L0, L1. exact R.
  - intros x H. assert (F : ffin x) by (revert H; rewrite eqb_equiv; unfold ffin; destruct (Prim2B x) as [s|s| |s m e K]; cbn; try discriminate; try reflexivity; destruct s; discriminate).
    apply eqb_true in H; [|exact F|reflexivity]. rewrite L0 in H. destruct (exp_val x F ltac:(lra)) as (FE & VE & R). apply eqb_true; [exact FE|reflexivity|]. rewrite VE, H, exp_0, <- L1. apply rnd_fval.
  - intros x y H1 H2. pose proof (at_most_0 y H2) as [->|[Fy Ly]].
    + assert (EX : x = neg_infinity).
      { apply Prim2B_inj. revert H1. rewrite leb_equiv. destruct (Prim2B x) as [s|s| |s m e K]; cbn; try discriminate; destruct s; try discriminate; reflexivity. }
      subst x. vm_compute. reflexivity.
    + destruct (exp_val y Fy Ly) as (FE & VE & R). destruct (PrimFloat.is_finite x) eqn:F.
      * apply ffin_spec in F. apply leb_true in H1; [|exact F|exact Fy]. destruct (exp_val x F ltac:(lra)) as (FE' & VE' & R'). apply leb_true; [exact FE'|exact FE|]. rewrite VE, VE'. apply rnd_le.
        destruct H1 as [H1|H1]; [left; apply exp_increasing, H1|rewrite H1; lra].
      * assert (EX : x = neg_infinity).
        { apply Prim2B_inj. revert H1 F Fy. rewrite leb_equiv, is_finite_equiv. unfold ffin. destruct (Prim2B x) as [s|s| |s m e K], (Prim2B y) as [s'|s'| |s' m' e' K']; cbn; try discriminate; destruct s; try discriminate; reflexivity. }
        subst x. change (rounded_exp neg_infinity) with 0%float. apply leb_true; [reflexivity|exact FE|]. rewrite L0. apply R.
Qed.

Lemma exponent_spec c : exponent c -> ffin c /\ 0 < fval c <= 100.
Proof.
  unfold exponent. rewrite andb_true_iff. intros [C1 C2].
  assert (C0 : (0 <=? c)%float = true) by (revert C1; rewrite ltb_equiv, leb_equiv; destruct (Prim2B c) as [s|s| |s m e K]; cbn; try discriminate; destruct s; try discriminate; reflexivity).
  assert (FC : ffin c) by exact (between_finite 0%float c 100%float eq_refl eq_refl C0 C2). split; [exact FC|].
  destruct (fltb_correct 0%float c ffin_zero FC) as [C1'|]; [|discriminate]. apply leb_true in C2; [|exact FC|reflexivity].
  assert (VC : fval 100%float = 100) by (unfold fval; vm_compute; lra). rewrite VC in C2. rewrite (proj1 lits) in C1'. lra.
Qed.
Lemma power_range x c : base x -> exponent c -> let r := (if Req_EM_T (fval x) 0 then 0 else Rpower (fval x) (fval c)) in 0 <= r <= fval 0x1p1000%float.
Proof.
  intros HB HC r. apply base_spec in HB as [FX RX]. apply exponent_spec in HC as [FC RC].
  assert (V : fval 0x1p1000%float = bpow radix2 1000) by (unfold fval; vm_compute; lra).
  unfold r. destruct (Req_EM_T (fval x) 0) as [Z|NZ]; [split; [lra|]; rewrite V; apply bpow_ge_0|].
  split; [left; apply exp_pos|]. assert (E : bpow radix2 1000 = Rpower 2 1000).
  { rewrite bpow_powerRZ. change (IZR radix2) with 2. rewrite powerRZ_Rpower by lra. reflexivity. }
  rewrite V, E. unfold Rpower. destruct (Rle_or_lt (fval c * ln (fval x)) (1000 * ln 2)) as [[L|L]|L]; [left; apply exp_increasing, L|rewrite L; lra|exfalso].
  assert (LX : ln (fval x) <= 10 * ln 2).
  { replace (10 * ln 2) with (ln 1024); [apply ln_mono; lra|]. replace 1024 with (2 ^ 10) by lra. rewrite ln_pow by lra. rewrite INR_IZR_INZ. reflexivity. }
  pose proof ln_lt_2 as L2. destruct (Rle_or_lt (ln (fval x)) 0); nra.
Qed.
Lemma pow_val x c : base x -> exponent c ->
  ffin (rounded_pow x c) /\ fval (rounded_pow x c) = rnd (if Req_EM_T (fval x) 0 then 0 else Rpower (fval x) (fval c)).
Proof.
  intros HB HC. pose proof (power_range x c HB HC) as R. cbv zeta in R. unfold rounded_pow. apply base_spec in HB as [FX RX]. rewrite (proj2 (not_infinite x FX)).
  apply (float_of_R_any _ 0x1p1000%float). rewrite Rabs_pos_eq by apply R. apply R.
Qed.
Example C124_pow_exists : pow_like rounded_pow.
Proof.
  destruct lits as (L0 & L1 & _). repeat split.
  - intros x c HB HC. destruct (pow_val x c HB HC) as [F V]. pose proof (power_range x c HB HC) as R. cbv zeta in R. apply andb_true_iff. split.
    + apply leb_true; [reflexivity|exact F|]. rewrite V, L0. apply rnd_nonneg, R.
    + rewrite ltb_equiv. unfold ffin in F. destruct (Prim2B (rounded_pow x c)) as [s|s| |s m e K]; try discriminate; reflexivity.
  - intros x c Z HC. assert (F : ffin x) by (revert Z; rewrite eqb_equiv; unfold ffin; destruct (Prim2B x) as [s|s| |s m e K]; cbn; try discriminate; try reflexivity; destruct s; discriminate).
    apply eqb_true in Z; [|exact F|reflexivity]. rewrite L0 in Z. assert (HB : base x) by (apply base_spec; split; [exact F|lra]).
    destruct (pow_val x c HB HC) as [FP V]. apply eqb_true; [exact FP|reflexivity|]. rewrite V, L0. destruct (Req_EM_T (fval x) 0); [apply rnd_0|contradiction].
  - intros x y c HB HB' HC L. destruct (pow_val x c HB HC) as [F V], (pow_val y c HB' HC) as [F' V']. apply leb_true; [exact F|exact F'|]. rewrite V, V'. apply rnd_le.
    pose proof (power_range y c HB' HC) as R. cbv zeta in R. apply base_spec in HB as [FX RX], HB' as [FY RY]. apply leb_true in L; [|exact FX|exact FY].
    destruct (Req_EM_T (fval x) 0) as [Z|NZ]; [apply R|]. destruct (Req_EM_T (fval y) 0) as [Z'|NZ']; [lra|].
    apply exponent_spec in HC as [FC RC]. apply Rle_Rpower_l; lra.
Qed.
Example C124_functions_exist : accurate_ln rounded_ln /\ accurate_pow rounded_pow /\ at_borders rounded_ln rounded_pow.
Proof.
  pose proof FiveRound.eta64_small' as E1. pose proof eta64_pos as E0.
  assert (NEAR : forall r x, / 10 ^ 16 <= Rabs r -> Rabs r <= fval x -> near (float_of_R r) r).
  { intros r x L U. destruct (float_of_R_any r x U) as [F V]. split; [apply ffin_spec, F|]. rewrite V. pose proof (rnd_err r) as R. unfold u64 in R. lra. }
  split; [|split; [|split; [|vm_compute; reflexivity]]].
  - intros u D. destruct (ln_draw u D) as [R _]. destruct D as [F (k & Hk & VK)]. apply ffin_spec in F.
    assert (NZ : (u =? 0)%float = false).
    { apply not_true_iff_false. intro Z. apply eqb_true in Z; [|exact F|reflexivity]. rewrite (proj1 lits), VK in Z. assert (1 <= IZR k) by (apply IZR_le; lia). lra. }
    unfold rounded_ln. rewrite NZ. assert (A : Rabs (ln (fval u)) = - ln (fval u)) by (apply Rabs_left; lra). apply (NEAR _ 1024%float); rewrite A; [lra|]. destruct lits as (_ & _ & -> & _). lra.
  - intros x HB HS. assert (HC : exponent 0x1.3333333333333p-2%float) by (vm_compute; reflexivity). pose proof (power_range x _ HB HC) as R. cbv zeta in R.
    apply base_spec in HB as [FX RX]. apply leb_true in HS; [|reflexivity|exact FX].
    assert (V6 : fval 0x1p-60%float = / 2 ^ 60) by (unfold fval; vm_compute; lra). rewrite V6 in HS. unfold rounded_pow. rewrite (proj2 (not_infinite x FX)).
    destruct (Req_EM_T (fval x) 0) as [Z|NZ]; [exfalso; lra|]. set (c := fval 0x1.3333333333333p-2%float) in *.
    assert (VC : c = 5404319552844595 / 18014398509481984) by (unfold c, fval; vm_compute; lra).
    apply (NEAR _ 0x1p1000%float); [|rewrite Rabs_pos_eq by apply R; apply R]. rewrite Rabs_pos_eq by apply R.
    assert (LX : -42 <= ln (fval x)).
    { apply Rle_trans with (ln (/ 2 ^ 60)); [|apply ln_mono; lra]. rewrite ln_Rinv by lra. rewrite ln_pow by lra. rewrite INR_IZR_INZ. change (IZR (Z.of_nat 60)) with 60. pose proof ln2_upper. lra. }
    assert (EX : exp (-14) <= Rpower (fval x) c).
    { unfold Rpower. destruct (Req_dec (c * ln (fval x)) (-14)) as [Q|Q]; [rewrite Q; lra|]. left. apply exp_increasing. rewrite VC in *. nra. }
    assert (E14 : exp (-14) * exp 14 = 1) by (rewrite <- exp_plus; replace (-14 + 14) with 0 by ring; apply exp_0).
    assert (E3 : exp 14 <= 3 ^ 14).
    { replace (exp 14) with (exp 1 ^ 14); [apply pow_incr; split; [left; apply exp_pos|apply exp_le_3]|]. replace 14 with (1+1+1+1+1+1+1+1+1+1+1+1+1+1) by ring. rewrite !exp_plus. ring. }
    pose proof (exp_pos (-14)) as P14. assert (1 <= exp (-14) * 3 ^ 14) by (rewrite <- E14; apply Rmult_le_compat_l; lra). lra.
  - intros u Z. unfold rounded_ln. rewrite Z. reflexivity.
Qed.
Example C124_mean_exists : mean_like (fun l => match filter (fun x => negb (PrimFloat.is_nan x)) l with x :: _ => x | [] => nan end).
Proof.
  intros l F (x & Hx & Nx). destruct (filter _ l) as [|y k] eqn:E.
  - exfalso. assert (K : In x (filter (fun x => negb (PrimFloat.is_nan x)) l)) by (apply filter_In; rewrite Nx; auto). rewrite E in K. exact K.
  - assert (K : In y (filter (fun x => negb (PrimFloat.is_nan x)) l)) by (rewrite E; left; reflexivity). apply filter_In in K as [K1 K2]. rewrite Forall_forall in F. destruct (F y K1) as [N|B]; [rewrite N in K2; discriminate|].
    apply base_spec in B as [FY RY]. destruct lits as (L0 & _). apply andb_true_iff. split; apply leb_true; try reflexivity; try exact FY; [rewrite L0; lra|].
    assert (V : fval 0x1p100%float = bpow radix2 100) by (unfold fval; vm_compute; lra). rewrite V. apply Rle_trans with 1024; [lra|]. replace 1024 with (bpow radix2 10) by (cbn; lra). apply bpow_le. lia.
Qed.
Example C124_met : fraction 0.25 /\ fraction 0.75 /\ amount 7.5 /\ duration 11.25 /\ amount 312.5 /\ (7.5 <=? 11.25)%float = true /\
  in_force (AMonthly [(4, 0.25%float)] [(4, 0.75%float)])%Z (month_of (19100 * us_day)) 0.25 0.75 /\
  temperatures 3.25 (-1.5) 12.5 /\ exponent 2.5 /\ drawn 0.25.
Proof.
  repeat split; try reflexivity. exists (2 ^ 51)%Z. split; [lia|]. assert (V : fval 0.25%float = 1 / 4) by (unfold fval; vm_compute; lra). rewrite V.
  replace (IZR (2 ^ 51)) with 2251799813685248 by (vm_compute; reflexivity). lra.
Qed.
