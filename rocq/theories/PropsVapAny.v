(** Property C127: vapour pressure and dew point in binary64 arithmetic. *)
From Coq Require Import ZArith List Bool Lia Reals Lra Floats String.
From Flocq Require Import Core.
From Verif Require Import Py Num Cal Series Trans UtilModel UtilModel2 Frame HumModel SpecBase SpecUtil SpecCourseRound SpecHumRound F64 CascadeFloat CascadeRound FiveRound AggRound CourseRound ErrCalc SineRound
  PropsSineRound PotAny SunAny PropsRadAny SpecHumMean PropsHumMean VapAnyModel SpecVapAny VapAny.
Import ListNotations.
Open Scope R_scope.

(** the formulas are those of the other properties *)
Theorem C127_same temp hum :
  vapor_pressure_any xexp temp hum = vapor_pressure temp hum /\
  dewpoint_temperature_any xexp xln temp hum = dewpoint_temperature temp hum /\
  (forall t, saturation_any xexp t = saturation_x t).
Proof.
  assert (V : forall t h, vapor_any xexp t h = vapor_pressure1 t h) by (intros t h; unfold vapor_any, vapor_pressure1, exponent_any, warm_any, c_zero; destruct (n_leb (lit 27315 2) t); reflexivity).
  split; [|split].
  - unfold vapor_pressure_any, vapor_pressure. destruct (Nat.eqb (List.length temp) (List.length hum)); [|reflexivity]. apply (f_equal Ok), map_ext. intros [t h]. apply V.
  - unfold dewpoint_temperature_any, dewpoint_temperature. destruct (Nat.eqb (List.length temp) (List.length hum)); [|reflexivity]. apply (f_equal Ok), map_ext. intros [t h].
    cbn [fst snd]. unfold dewpoint_any, dewpoint1, warm_any. rewrite V. reflexivity.
  - intro t. apply V.
Qed.
Print Assumptions C127_same.

Lemma Ok_same {A} (x y : A) : Ok x = Ok y -> x = y.
Proof. congruence. Qed.
Lemma pairs_spec {A B} (f : A -> A -> B) (l k : list A) i v : List.length l = List.length k -> nth_error (map (fun p => f (fst p) (snd p)) (combine l k)) i = Some v ->
  exists a b, nth_error l i = Some a /\ nth_error k i = Some b /\ v = f a b.
Proof.
  revert k i. induction l as [|a l IH]; intros [|b k] i E H; cbn in *; try discriminate; [destruct i; discriminate|].
  destruct i as [|i]; cbn in *; [injection H as <-; exists a, b; repeat split|apply IH; [lia|exact H]].
Qed.
Lemma pairs_length {A B} (f : A -> A -> B) (l k : list A) : List.length l = List.length k -> List.length (map (fun p => f (fst p) (snd p)) (combine l k)) = List.length l.
Proof. intro E. rewrite map_length, combine_length, E. lia. Qed.

(** ** vapour pressure *)
Theorem C127_pressure expf temp hum : good_exponential expf -> List.length temp = List.length hum ->
  exists out, vapor_pressure_any expf temp hum = Ok out /\ List.length out = List.length temp /\
    (forall i t h v, nth_error temp i = Some t -> nth_error hum i = Some h -> nth_error out i = Some v -> air t -> humid h ->
       relatively (15 / 10 ^ 14) v (saturation_R (thawing t) (fval t) * (fval h / 100)) /\ 0 <= fval v /\ (fval h = 0 -> fval v = 0)) /\
    (forall i j t h k v w, nth_error temp i = Some t -> nth_error temp j = Some t -> nth_error hum i = Some h -> nth_error hum j = Some k ->
       nth_error out i = Some v -> nth_error out j = Some w -> air t -> humid h -> humid k -> (h <=? k)%float = true -> (v <=? w)%float = true).
Proof.
  intros GE E. exists (map (fun p => vapor_any expf (fst p) (snd p)) (combine temp hum)). split; [unfold vapor_pressure_any; rewrite E, Nat.eqb_refl; reflexivity|].
  split; [apply pairs_length, E|]. split.
  - intros i t h v HT HH HV A H. destruct (pairs_spec _ _ _ _ _ E HV) as (t' & h' & T' & H' & ->). rewrite HT in T'. injection T' as <-. rewrite HH in H'. injection H' as <-.
    destruct (vapor_near expf GE t h A H) as [F N]. pose proof eta64_small as ES. pose proof eta64_pos as E0. pose proof (saturation_range t A) as B. destruct H as [FH BH].
    set (s := saturation_R (thawing t) (fval t)) in *. replace (s * (fval h / 100)) with (s * fval h / 100) by lra.
    assert (P : 0 <= s * fval h / 100) by (assert (0 <= s * fval h) by (apply Rmult_le_pos; lra); lra). split; [|split].
    + split; [apply ffin_spec; exact F|]. lra.
    + assert (Z0 : humid 0%float) by (split; [reflexivity|change (fval 0%float) with 0; lra]).
      destruct (vapor_zero expf GE t 0%float A eq_refl eq_refl) as [_ V0]. rewrite <- V0. apply vapor_mono; [exact GE|exact A|exact Z0|split; assumption|]. change (fval 0%float) with 0. lra.
    + intro H0. apply (vapor_zero expf GE t h A FH H0).
  - intros i j t h k v w HT HT2 HH HK HV HW A H K L.
    destruct (pairs_spec _ _ _ _ _ E HV) as (t' & h' & T' & H' & ->). rewrite HT in T'. injection T' as <-. rewrite HH in H'. injection H' as <-.
    destruct (pairs_spec _ _ _ _ _ E HW) as (t' & h' & T' & H' & ->). rewrite HT2 in T'. injection T' as <-. rewrite HK in H'. injection H' as <-.
    destruct (vapor_near expf GE t h A H) as [F1 _]. destruct (vapor_near expf GE t k A K) as [F2 _]. apply (leb_true _ _ F1 F2). apply vapor_mono; [exact GE|exact A|exact H|exact K|].
    apply (leb_true h k (proj2 (ffin_spec h) (proj1 H)) (proj2 (ffin_spec k) (proj1 K))). exact L.
Qed.
Print Assumptions C127_pressure.

(** ** dew point *)
Theorem C127_dew_point expf logf temp hum : good_exponential expf -> good_logarithm logf -> List.length temp = List.length hum ->
  exists out, dewpoint_temperature_any expf logf temp hum = Ok out /\ List.length out = List.length temp /\
    forall i t h d, nth_error temp i = Some t -> nth_error hum i = Some h -> nth_error out i = Some d -> air t -> humid h -> 1 / 10 ^ 6 <= fval h ->
      PrimFloat.is_finite d = true /\
      Rabs (fval d - dew_R (thawing t) (saturation_R (thawing t) (fval t) * (fval h / 100))) <= 1 / 10 ^ 10 /\
      fval d <= fval t + 1 / 10 ^ 10 /\
      (fval h = 100 -> Rabs (fval d - fval t) <= 1 / 10 ^ 10).
Proof.
  intros GE GL E. exists (map (fun p => dewpoint_any expf logf (fst p) (snd p)) (combine temp hum)). split; [unfold dewpoint_temperature_any; rewrite E, Nat.eqb_refl; reflexivity|].
  split; [apply pairs_length, E|]. intros i t h d HT HH HD A H L.
  destruct (pairs_spec _ _ _ _ _ E HD) as (t' & h' & T' & H' & ->). rewrite HT in T'. injection T' as <-. rewrite HH in H'. injection H' as <-.
  destruct (dew_near expf logf GE GL t h A H L) as [F N]. destruct (dew_exact t h A (conj L (proj2 (proj2 H)))) as [X1 X2].
  replace (saturation_R (thawing t) (fval t) * (fval h / 100)) with (saturation_R (thawing t) (fval t) * fval h / 100) by lra.
  split; [apply ffin_spec; exact F|]. split; [exact N|]. split.
  - apply Flocq.Core.Raux.Rabs_le_inv in N. lra.
  - intro H1. rewrite (X2 H1) in N. exact N.
Qed.
Print Assumptions C127_dew_point.

(** ** missing values, dry air, inputs of different length *)
Theorem C127_missing expf logf temp hum :
  (forall x, PrimFloat.is_nan x = true -> PrimFloat.is_nan (expf x) = true /\ PrimFloat.is_nan (logf x) = true) ->
  (forall x, PrimFloat.is_finite x = true -> fval x = 0 -> logf x = neg_infinity) -> good_exponential expf ->
  (List.length temp <> List.length hum -> vapor_pressure_any expf temp hum = Err AssertionError /\ dewpoint_temperature_any expf logf temp hum = Err AssertionError) /\
  forall vs ds, vapor_pressure_any expf temp hum = Ok vs -> dewpoint_temperature_any expf logf temp hum = Ok ds ->
    forall i t h v d, nth_error temp i = Some t -> nth_error hum i = Some h -> nth_error vs i = Some v -> nth_error ds i = Some d ->
      (PrimFloat.is_nan t = true \/ PrimFloat.is_nan h = true -> PrimFloat.is_nan v = true /\ PrimFloat.is_nan d = true) /\
      (air t -> PrimFloat.is_finite h = true -> fval h = 0 -> PrimFloat.is_finite v = true /\ fval v = 0 /\ PrimFloat.is_nan d = true).
Proof.
  intros NN L0 GE. unfold vapor_pressure_any, dewpoint_temperature_any. destruct (Nat.eqb_spec (List.length temp) (List.length hum)) as [E|E].
  - split; [intro Q; contradiction|]. intros vs ds EV ED i t h v d HT HH HV HD. apply Ok_same in EV, ED. subst vs ds.
    destruct (pairs_spec _ _ _ _ _ E HV) as (t' & h' & T' & H' & ->). rewrite HT in T'. injection T' as <-. rewrite HH in H'. injection H' as <-.
    destruct (pairs_spec _ _ _ _ _ E HD) as (t' & h' & T' & H' & ->). rewrite HT in T'. injection T' as <-. rewrite HH in H'. injection H' as <-. split.
    + intro Q. assert (V : PrimFloat.is_nan (vapor_any expf t h) = true) by (destruct Q as [Q|Q]; [apply vapor_nan_temp; [intros x X; apply (NN x X)|exact Q]|apply vapor_nan, Q]).
      split; [exact V|]. apply dew_nan; [intros x X; apply (NN x X)|exact V].
    + intros A FH H0. destruct (vapor_zero expf GE t h A FH H0) as [F V]. split; [apply ffin_spec; exact F|]. split; [exact V|]. apply dew_zero; assumption.
  - split; [intros _; split; reflexivity|]. intros vs ds EV. discriminate.
Qed.
Print Assumptions C127_missing.

(** ** hourly humidity *)
Lemma saturation_near expf t : good_exponential expf -> air t ->
  let s := saturation_R (thawing t) (fval t) in
  ffin (saturation_any expf t) /\ Rabs (fval (saturation_any expf t) - s) <= 15 / 10 ^ 14 * s /\ 1 / 10 ^ 9 <= s <= 2 * 10 ^ 4.
Proof.
  intros GE A s. pose proof (saturation_range t A) as B. fold s in B.
  assert (H1 : fval (n0 + n_ofZ 100 : float)%num = 100) by (unfold fval; vm_compute; lra).
  assert (H : humid (n0 + n_ofZ 100)%num) by (split; [vm_compute; reflexivity|rewrite H1; lra]).
  destruct (vapor_near expf GE t _ A H) as [F N]. fold s in N. rewrite H1 in N. pose proof eta64_small as ES. pose proof eta64_pos as E0.
  assert (ET : eta64 <= 1 / 10 ^ 40).
  { assert (1 / 10 ^ 300 <= 1 / 10 ^ 40); [|lra]. unfold Rdiv. rewrite !Rmult_1_l. apply Rinv_le_contravar; [apply pow_lt; lra|apply Rle_pow; [lra|lia]]. }
  split; [exact F|]. split; [|exact B]. replace (s * 100 / 100) with s in N by lra. unfold saturation_any. lra.
Qed.
Lemma saturation_pressure expf t : good_exponential expf -> air t -> pressure (saturation_any expf t).
Proof.
  intros GE A. destruct (saturation_near expf t GE A) as (F & N & B). cbv zeta in *. apply Flocq.Core.Raux.Rabs_le_inv in N.
  unfold pressure. apply andb_true_intro.
  assert (F1 : ffin 0x1p-400%float /\ fval 0x1p-400%float <= 1 / 10 ^ 10).
  { split; [unfold ffin; vm_compute; reflexivity|]. assert (L : (0x1p-400 <=? 0x1p-40)%float = true) by reflexivity.
    apply (proj1 (leb_true _ _ (eq_refl : ffin 0x1p-400%float) (eq_refl : ffin 0x1p-40%float))) in L. assert (V : fval 0x1p-40%float = 1 / 1099511627776) by (unfold fval; vm_compute; lra). rewrite V in L. lra. }
  assert (F2 : ffin 0x1p400%float /\ 10 ^ 5 <= fval 0x1p400%float).
  { split; [unfold ffin; vm_compute; reflexivity|]. assert (L : (0x1p40 <=? 0x1p400)%float = true) by reflexivity.
    apply (proj1 (leb_true _ _ (eq_refl : ffin 0x1p40%float) (eq_refl : ffin 0x1p400%float))) in L. assert (V : fval 0x1p40%float = 1099511627776) by (unfold fval; vm_compute; lra). rewrite V in L. lra. }
  split; [apply (leb_true _ _ (proj1 F1) F); lra|apply (leb_true _ _ F (proj1 F2)); lra].
Qed.
Lemma humidity_near expf d x : good_exponential expf -> air d -> air x -> Rabs (rel_humidity (saturation_any expf d) (saturation_any expf x) - humidity_R d x) <= 7 / 10 ^ 11.
Proof.
  intros GE D X. destruct (saturation_near expf d GE D) as (_ & N1 & B1). destruct (saturation_near expf x GE X) as (_ & N2 & B2). cbv zeta in *. unfold rel_humidity, humidity_R.
  set (p := saturation_R (thawing d) (fval d)) in *. set (s := saturation_R (thawing x) (fval x)) in *.
  set (p' := fval (saturation_any expf d)) in *. set (s' := fval (saturation_any expf x)) in *. clearbody p s p' s'. apply Flocq.Core.Raux.Rabs_le_inv in N1, N2.
  assert (S' : 0 < s') by lra. assert (S0 : 0 < s) by lra.
  assert (Q : 100 * p / s * s = 100 * p) by (field; lra). assert (Q' : 100 * p' / s' * s' = 100 * p') by (field; lra).
  set (q := 100 * p / s) in *. set (q' := 100 * p' / s') in *. clearbody q q'.
  assert (q0 : 0 < q) by nra.
  assert (K : q * (1 - 31 / 10 ^ 14) <= q' <= q * (1 + 31 / 10 ^ 14)).
  { split.
    - apply Rmult_le_reg_r with s'; [exact S'|]. rewrite Q'.
      assert (q * (1 - 31 / 10 ^ 14) * s' <= q * (1 - 31 / 10 ^ 14) * (s + 15 / 10 ^ 14 * s)) by (apply Rmult_le_compat_l; nra).
      replace (q * (1 - 31 / 10 ^ 14) * (s + 15 / 10 ^ 14 * s)) with ((1 - 31 / 10 ^ 14) * (1 + 15 / 10 ^ 14) * (q * s)) in H by ring. rewrite Q in H. lra.
    - apply Rmult_le_reg_r with s'; [exact S'|]. rewrite Q'.
      assert (q * (1 + 31 / 10 ^ 14) * (s - 15 / 10 ^ 14 * s) <= q * (1 + 31 / 10 ^ 14) * s') by (apply Rmult_le_compat_l; nra).
      replace (q * (1 + 31 / 10 ^ 14) * (s - 15 / 10 ^ 14 * s)) with ((1 + 31 / 10 ^ 14) * (1 - 15 / 10 ^ 14) * (q * s)) in H by ring. rewrite Q in H. lra. }
  unfold Rmin. destruct (Rle_dec 100 q') as [L1|L1], (Rle_dec 100 q) as [L2|L2]; apply Rabs_le; lra.
Qed.
Theorem C127_humidity expf wave e (d : dframe float) d0 n tmin (temp : series float) a0 a1 kr mhp method :
  good_exponential expf -> n <> O -> f_index d = daily_index d0 n -> assoc "tmin" (f_cols d) = Some tmin -> List.length tmin = n -> map fst temp = hours_index d0 n ->
  method = "dewpoint_regression"%string \/ method = "minimal"%string ->
  exists out, disaggregate_humidity_gen (saturation_any expf) wave e d method (Some temp) (Some a0) (Some a1) kr mhp false = Ok out /\ map fst out = hours_index d0 n /\
    forall i m, nth_error tmin i = Some m ->
      let dew := if String.eqb method "minimal" then m else (a0 + a1 * m)%float in
      let ts := values_on (d0 + Z.of_nat i) temp in
      let vs := values_on (d0 + Z.of_nat i) out in
      air m -> air dew -> Forall air ts ->
      List.length vs = List.length ts /\
      forall h x v, nth_error ts h = Some x -> nth_error vs h = Some v -> percent v /\ Rabs (fval v - humidity_R dew x) <= 1 / 10 ^ 10.
Proof.
  intros GE NE FI C L ET [-> | ->].
  - destruct (C122_dew_point (saturation_any expf) wave e d d0 n tmin temp a0 a1 kr mhp NE FI C L ET) as (out & EO & IO & V). exists out. split; [exact EO|]. split; [exact IO|].
    intros i m HM dew ts vs AM AD AT. change dew with (a0 + a1 * m)%float in *. rewrite Forall_forall in AT.
    destruct (V i m HM (proj1 AD) (saturation_pressure expf _ GE AD)) as (L1 & V1 & _); [intros x Hx; apply (saturation_pressure expf x GE), AT, Hx|]. split; [exact L1|].
    intros h x v HX HV. destruct (V1 h x v HX HV) as [P N]. split; [exact P|].
    pose proof (humidity_near expf (a0 + a1 * m)%float x GE AD (AT x (nth_error_In _ _ HX))) as K. apply Flocq.Core.Raux.Rabs_le_inv in N, K. apply Rabs_le. lra.
  - destruct (C122_minimal (saturation_any expf) wave e d d0 n tmin temp (Some a0) (Some a1) kr mhp NE FI C L ET) as (out & EO & IO & V). exists out. split; [exact EO|]. split; [exact IO|].
    intros i m HM dew ts vs AM _ AT. change dew with m in *. rewrite Forall_forall in AT.
    assert (PM : (0 <? m)%float = true).
    { destruct (fltb_correct 0%float m ffin_zero (proj2 (ffin_spec m) (proj1 AM))) as [_|Q]; [reflexivity|]. change (fval 0%float) with 0 in Q. destruct AM as [_ [AM _]]. lra. }
    destruct (V i m HM (proj1 AM) PM (saturation_pressure expf _ GE AM)) as (L1 & V1 & _); [intros x Hx; apply (saturation_pressure expf x GE), AT, Hx|]. split; [exact L1|].
    intros h x v HX HV. destruct (V1 h x v HX HV) as (P & N & _). split; [exact P|].
    pose proof (humidity_near expf m x GE AM (AT x (nth_error_In _ _ HX))) as K. apply Flocq.Core.Raux.Rabs_le_inv in N, K. apply Rabs_le. lra.
Qed.
Print Assumptions C127_humidity.

(** ** the hypotheses can be met *)
Definition rounded_exp (x : float) : float := if PrimFloat.is_nan x then nan else if Rle_dec (fval x) 20 then float_of_R (exp (fval x)) else infinity.
Definition rounded_ln (x : float) : float := if PrimFloat.is_nan x then nan else if Req_EM_T (fval x) 0 then neg_infinity else if Rle_dec (Rabs (ln (fval x))) 60 then float_of_R (ln (fval x)) else nan.
Example C127_functions_exist : good_exponential rounded_exp /\ good_logarithm rounded_ln /\
  (forall x, PrimFloat.is_nan x = true -> PrimFloat.is_nan (rounded_exp x) = true /\ PrimFloat.is_nan (rounded_ln x) = true) /\
  (forall x, PrimFloat.is_finite x = true -> fval x = 0 -> rounded_ln x = neg_infinity).
Proof.
  pose proof eta64_small as ES. pose proof eta64_pos as E0.
  assert (ET : eta64 <= 1 / 10 ^ 40).
  { assert (1 / 10 ^ 300 <= 1 / 10 ^ 40); [|lra]. unfold Rdiv. rewrite !Rmult_1_l. apply Rinv_le_contravar; [apply pow_lt; lra|apply Rle_pow; [lra|lia]]. }
  assert (V : fval 0x1p40%float = 1099511627776) by (unfold fval; vm_compute; lra).
  assert (N : forall r, Rabs r <= 1099511627776 -> ffin (float_of_R r) /\ Rabs (fval (float_of_R r) - r) <= 12 / 10 ^ 17 * Rabs r + eta64).
  { intros r H. destruct (float_of_R_any r 0x1p40%float) as [F E]; [rewrite V; lra|]. split; [exact F|]. rewrite E. pose proof (rnd_err r) as R. pose proof u64_tiny. pose proof (Rabs_pos r).
    assert (u64 * Rabs r <= 12 / 10 ^ 17 * Rabs r) by (apply Rmult_le_compat_r; lra). lra. }
  split; [|split; [|split]].
  - intros x F B. unfold rounded_exp. rewrite (ffin_not_nan x) by (apply ffin_spec; exact F). apply Flocq.Core.Raux.Rabs_le_inv in B. destruct (Rle_dec (fval x) 20) as [L|L]; [|lra].
    assert (I20 : INR 20 = 20) by (rewrite INR_IZR_INZ; reflexivity). pose proof (exp_pos (fval x)) as P.
    assert (U : exp (fval x) <= 3 ^ 20) by (apply exp_up; rewrite I20; lra). assert (D : / 3 ^ 20 <= exp (fval x)) by (apply exp_down; rewrite I20; lra).
    destruct (N (exp (fval x))) as [F1 E1]; [rewrite Rabs_pos_eq; lra|]. split; [apply ffin_spec; exact F1|]. rewrite (Rabs_pos_eq (exp (fval x))) in E1 by lra. lra.
  - intros x F B. unfold rounded_ln. rewrite (ffin_not_nan x) by (apply ffin_spec; exact F). destruct (Req_EM_T (fval x) 0) as [Z|_]; [lra|].
    assert (L10 : ln 10 <= 3).
    { rewrite <- (ln_exp 3). left. apply ln_increasing; [lra|]. pose proof (exp_ineq1_le (1 / 2)) as Q. replace 3 with (1 / 2 + 1 / 2 + (1 / 2 + 1 / 2) + (1 / 2 + 1 / 2)) by lra. rewrite !exp_plus. set (a := exp (1 / 2)) in *. clearbody a. assert (9 / 4 <= a * a) by nra. assert (81 / 16 <= a * a * (a * a)) by nra. nra. }
    assert (L20 : ln (10 ^ 20) <= 60).
    { rewrite ln_pow by lra. assert (I20 : INR 20 = 20) by (rewrite INR_IZR_INZ; reflexivity). rewrite I20. lra. }
    assert (M : forall a b, 0 < a -> a <= b -> ln a <= ln b) by (intros a b A0 [Q|<-]; [left; apply ln_increasing; assumption|lra]).
    assert (BL : Rabs (ln (fval x)) <= 60).
    { pose proof (M (fval x) (10 ^ 20) ltac:(lra) ltac:(lra)) as U. pose proof (M (/ 10 ^ 20) (fval x) ltac:(lra) ltac:(lra)) as D. rewrite ln_Rinv in D by lra. apply Rabs_le. lra. }
    destruct (Rle_dec (Rabs (ln (fval x))) 60) as [_|Q]; [|contradiction]. destruct (N (ln (fval x))) as [F1 E1]; [lra|]. split; [apply ffin_spec; exact F1|]. lra.
  - intros x X. unfold rounded_exp, rounded_ln. rewrite X. split; reflexivity.
  - intros x F Z. unfold rounded_ln. rewrite (ffin_not_nan x) by (apply ffin_spec; exact F). destruct (Req_EM_T (fval x) 0) as [_|Q]; [reflexivity|contradiction].
Qed.
Example C127_met : Forall air [253; 0x1.1126666666666p+8; 290]%float /\ Forall humid [0; 50; 100]%float /\ map thawing [253; 0x1.1126666666666p+8; 290]%float = [false; true; true] /\
  f_index ex_cold = daily_index 19000 1 /\ assoc "tmin" (f_cols ex_cold) = Some [280%float] /\ map fst ex_warmer = hours_index 19000 1 /\ Forall air (values_on 19000 ex_warmer) /\ air 280.
Proof.
  assert (A : forall x r, PrimFloat.is_finite x = true -> fval x = r -> 150 <= r <= 400 -> air x) by (intros x r F V B; split; [exact F|rewrite V; exact B]).
  assert (A1 : air 253) by (apply (A _ 253); [reflexivity|unfold fval; vm_compute; lra|lra]).
  assert (A2 : air 280) by (apply (A _ 280); [reflexivity|unfold fval; vm_compute; lra|lra]).
  assert (A3 : air 290) by (apply (A _ 290); [reflexivity|unfold fval; vm_compute; lra|lra]).
  assert (A4 : air 0x1.1126666666666p+8) by (split; [reflexivity|pose proof (proj2 freezing_val); lra]).
  assert (H : forall x r, PrimFloat.is_finite x = true -> fval x = r -> 0 <= r <= 100 -> humid x) by (intros x r F V B; split; [exact F|rewrite V; exact B]).
  split; [repeat (apply Forall_cons; [assumption|]); apply Forall_nil|]. split.
  { apply Forall_cons; [apply (H _ 0); [reflexivity|reflexivity|lra]|]. apply Forall_cons; [apply (H _ 50); [reflexivity|unfold fval; vm_compute; lra|lra]|].
    apply Forall_cons; [apply (H _ 100); [reflexivity|unfold fval; vm_compute; lra|lra]|apply Forall_nil]. }
  split; [vm_compute; reflexivity|]. split; [reflexivity|]. split; [reflexivity|]. split; [vm_compute; reflexivity|]. split; [|exact A2].
  rewrite Forall_forall. intros x Hx. cbn in Hx. repeat (destruct Hx as [<-|Hx]; [assumption|]). destruct Hx.
Qed.
