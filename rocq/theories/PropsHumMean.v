(** Property C122: humidity in binary64: the observed daily mean restored, and the dew point methods. *)
From Coq Require Import String ZArith List Bool Lia Reals Lra Floats.
From Verif Require Import Py Num Cal Series UtilModel Frame HumModel HumMeanModel SpecBase SpecUtil DaysProofs IndexProofs EqualProofs HumProofs
  F64 SpecCourseRound CourseRound SpecMasterRound SpecFiveRound FiveRound FiveModel SpecScaleRound ScaleRound SpecHumRound HumRound PropsHumRound SpecHumMean HumMean.
Import ListNotations.
Open Scope Z_scope.
Notation float := PrimFloat.float (only parsing).

(** the same functions of the numbers are what [disaggregate_humidity] computes *)
Theorem C122_same_formula {T} {N : Num T} saturation wave e (d : dframe T) method temp a0 a1 kr mhp keep :
  disaggregate_humidity_gen saturation wave e d method temp a0 a1 kr mhp keep
  = humidity_with nanmean saturation wave e d method temp a0 a1 kr mhp keep.
Proof. reflexivity. Qed.
Print Assumptions C122_same_formula.

(** ** the daily mean *)
Lemma nan_float : n_isnan (n_nan : float) = true.
Proof. vm_compute. reflexivity. Qed.
Lemma keep_function mean saturation wave e (d : dframe float) d0 n hum method temp a0 a1 kr mhp raw :
  n <> O -> f_index d = daily_index d0 n -> assoc "hum" (f_cols d) = Some hum -> length hum = n ->
  humidity_with mean saturation wave e d method temp a0 a1 kr mhp false = Ok raw -> map fst raw = hours_index d0 n ->
  exists out, humidity_with mean saturation wave e d method temp a0 a1 kr mhp true = Ok out /\ map fst out = hours_index d0 n /\
    forall i o, nth_error hum i = Some o -> Forall partly (values_on (d0 + Z.of_nat i) raw) ->
      let xs := values_on (d0 + Z.of_nat i) raw in
      let b := (mean xs - o)%float in
      values_on (d0 + Z.of_nat i) out = map (fun x => clip1 n0 (n_ofZ 100) (x - (if n_isnan b then n0 else b))%float) xs.
Proof.
  intros NE FI C L E ER. unfold humidity_with in *. destruct (negb _); [discriminate|].
  destruct (raw_humidity _ _ _ _ _ _ _ _ _ _) as [r|]; [|discriminate]. cbv beta iota delta [bind] in *. assert (EQ : forall x y : series float, Ok x = Ok y -> x = y) by congruence. apply EQ in E. clear EQ. subst raw.
  assert (ER' : map fst r = hours_index d0 n) by (rewrite map_map in ER; exact ER).
  destruct (preserve_function mean e d d0 n hum r nan_float NE FI C L ER') as (out & EO & EI & V). rewrite EO. cbv beta iota delta [bind].
  eexists. split; [reflexivity|]. split; [rewrite map_map; exact EI|]. intros i o Ho FP. cbv zeta. rewrite clip_values in FP. rewrite !clip_values, (V i o Ho), map_map.
  assert (EX : map (clip1 n0 (n_ofZ 100)) (values_on (d0 + Z.of_nat i) r) = values_on (d0 + Z.of_nat i) r).
  { rewrite <- (map_id (values_on _ r)) at 2. apply map_ext_in. intros x Hx. apply partly_clip. rewrite Forall_forall in FP. apply FP, (in_map (clip1 n0 (n_ofZ 100))), Hx. }
  rewrite EX. reflexivity.
Qed.

Theorem C122_daily_mean mean saturation wave e (d : dframe float) d0 n hum method temp a0 a1 kr mhp raw :
  means_within mean -> n <> O -> f_index d = daily_index d0 n -> assoc "hum" (f_cols d) = Some hum -> length hum = n ->
  humidity_with mean saturation wave e d method temp a0 a1 kr mhp false = Ok raw -> map fst raw = hours_index d0 n ->
  exists out, humidity_with mean saturation wave e d method temp a0 a1 kr mhp true = Ok out /\ map fst out = hours_index d0 n /\
    forall i o, nth_error hum i = Some o -> percent o -> 
      let xs := values_on (d0 + Z.of_nat i) raw in
      let vs := values_on (d0 + Z.of_nat i) out in
      Forall partly xs ->
      length vs = 24%nat /\ Forall percent vs /\
      (forall h x v, nth_error xs h = Some x -> nth_error vs h = Some v ->
         (Rabs (fval v - to_percent (fval x - (Rmean (map fval xs) - fval o))) <= 4 / 10 ^ 12)%R) /\
      (forall h k x y v w, nth_error xs h = Some x -> nth_error xs k = Some y -> nth_error vs h = Some v -> nth_error vs k = Some w ->
         (x <=? y)%float = true -> (v <=? w)%float = true) /\
      (Forall partly vs -> (Rabs (Rmean (map fval vs) - fval o) <= 4 / 10 ^ 12)%R).
Proof.
  intros HM NE FI C L E ER. destruct (keep_function mean saturation wave e d d0 n hum method temp a0 a1 kr mhp raw NE FI C L E ER) as (out & EO & EI & V).
  exists out. split; [exact EO|]. split; [exact EI|]. intros i o Ho PO xs vs FP.
  assert (Hi : (i < n)%nat) by (rewrite <- L; apply nth_error_Some; congruence).
  assert (LX : length xs = 24%nat).
  { unfold xs. rewrite (hours_function d0 n raw ER), (values_on_map_hours _ d0 n i Hi), map_length, seq_length. reflexivity. }
  assert (EV : vs = map (corrected mean xs o) xs).
  { specialize (V i o Ho FP). cbv zeta in V. fold xs in V. fold vs in V. rewrite V.
    destruct (bias_spec mean xs o HM LX FP PO) as (FB & _). apply finite_valid in FB. rewrite FB. reflexivity. }
  clearbody vs xs. subst vs. pose proof FP as FP'. rewrite Forall_forall in FP'.
  assert (K : forall x, In x xs -> F64.ffin (corrected mean xs o x) /\ (0 <= fval (corrected mean xs o x) <= 100)%R).
  { intros x Hx. destruct (corrected_spec mean xs o HM LX FP PO x (FP' x Hx)) as (F & Ev & _). split; [exact F|]. rewrite Ev. apply to_percent_range. }
  split; [rewrite map_length; exact LX|]. split; [|split; [|split]].
  - apply Forall_map, Forall_forall. intros x Hx. destruct (K x Hx) as [F B]. destruct hundred as [F1 V1]. unfold percent. apply andb_true_iff.
    split; [apply (leb_true _ _ ffin_zero F); exact (proj1 B)|apply (leb_true _ _ F F1); rewrite V1; exact (proj2 B)].
  - intros h x v Hx Hv. rewrite nth_error_map, Hx in Hv. injection Hv as <-. apply (corrected_spec mean xs o HM LX FP PO x). apply FP', (nth_error_In _ _ Hx).
  - intros h k x y v w Hx Hy Hv Hw LE. rewrite nth_error_map, Hx in Hv. rewrite nth_error_map, Hy in Hw. injection Hv as <-. injection Hw as <-.
    pose proof (FP' x (nth_error_In _ _ Hx)) as PX. pose proof (FP' y (nth_error_In _ _ Hy)) as PY.
    destruct (partly_spec x PX) as [FX _], (partly_spec y PY) as [FY _]. apply (leb_true _ _ FX FY) in LE.
    apply (leb_true _ _ (proj1 (K x (nth_error_In _ _ Hx))) (proj1 (K y (nth_error_In _ _ Hy)))). apply corrected_le; assumption.
  - intro FV. apply corrected_mean; try assumption. intros x Hx. rewrite Forall_forall in FV. apply FV, in_map, Hx.
Qed.
Print Assumptions C122_daily_mean.

(** without an observation the day is left as it is *)
Theorem C122_no_observation mean saturation wave e (d : dframe float) d0 n hum method temp a0 a1 kr mhp raw out i o :
  n <> O -> f_index d = daily_index d0 n -> assoc "hum" (f_cols d) = Some hum -> length hum = n ->
  humidity_with mean saturation wave e d method temp a0 a1 kr mhp false = Ok raw -> map fst raw = hours_index d0 n ->
  humidity_with mean saturation wave e d method temp a0 a1 kr mhp true = Ok out ->
  nth_error hum i = Some o -> PrimFloat.is_nan o = true -> Forall partly (values_on (d0 + Z.of_nat i) raw) ->
  values_on (d0 + Z.of_nat i) out = values_on (d0 + Z.of_nat i) raw.
Proof.
  intros NE FI C L E ER EO Ho NO FP.
  destruct (keep_function mean saturation wave e d d0 n hum method temp a0 a1 kr mhp raw NE FI C L E ER) as (out' & EO' & _ & V).
  rewrite EO in EO'. injection EO' as <-. rewrite (V i o Ho FP). set (xs := values_on (d0 + Z.of_nat i) raw) in *.
  assert (NB : n_isnan (mean xs - o)%float = true) by (apply sub_nan, NO). rewrite NB.
  rewrite <- (map_id xs) at 2. apply map_ext_in. intros x Hx. rewrite Forall_forall in FP. destruct (partly_spec x (FP x Hx)) as [F B].
  rewrite (sub_0 x F (proj1 B)). unfold clip1. change (n_ltb x n0) with (x <? 0)%float. change (n_ltb (n_ofZ 100) x) with (100 <? x)%float. destruct hundred as [F1 V1].
  destruct (fltb_correct x 0%float F ffin_zero) as [Q|_]; [change (fval 0%float) with 0%R in Q; lra|]. destruct (fltb_correct 100%float x F1 F) as [Q|_]; [rewrite V1 in Q; lra|reflexivity].
Qed.
Print Assumptions C122_no_observation.

(** ** dew point methods: [a0 + a1 tmin] in doubles is the dew point *)
Lemma dew_day (saturation : float -> float) (p : float) (xs vs : list float) : (forall x, In x xs -> pressure (saturation x)) -> pressure p ->
  vs = map (fun x => saturated p (saturation x)) xs ->
  (forall h x v, nth_error xs h = Some x -> nth_error vs h = Some v -> percent v /\ (Rabs (fval v - rel_humidity p (saturation x)) <= 3 / 10 ^ 14)%R) /\
  (forall h k x y v w, nth_error xs h = Some x -> nth_error xs k = Some y -> nth_error vs h = Some v -> nth_error vs k = Some w ->
     (saturation x <=? saturation y)%float = true -> (w <=? v)%float = true).
Proof.
  intros HS HP ->. destruct hundred as [F1 V1]. split.
  - intros h x v Hx Hv. rewrite nth_error_map, Hx in Hv. injection Hv as <-. destruct (saturated_spec p (saturation x) HP (HS x (nth_error_In _ _ Hx))) as (F & Ev & D).
    split; [|exact D]. assert (B : (0 <= fval (saturated p (saturation x)) <= 100)%R) by (rewrite Ev; apply to_percent_range). unfold percent. apply andb_true_iff.
    split; [apply (leb_true _ _ ffin_zero F); exact (proj1 B)|apply (leb_true _ _ F F1); rewrite V1; exact (proj2 B)].
  - intros h k x y v w Hx Hy Hv Hw LE. rewrite nth_error_map, Hx in Hv. rewrite nth_error_map, Hy in Hw. injection Hv as <-. injection Hw as <-.
    pose proof (HS x (nth_error_In _ _ Hx)) as PX. pose proof (HS y (nth_error_In _ _ Hy)) as PY.
    destruct (pressure_spec _ PX) as [FX _], (pressure_spec _ PY) as [FY _]. apply (leb_true _ _ FX FY) in LE.
    destruct (saturated_spec p _ HP PX) as (A & _). destruct (saturated_spec p _ HP PY) as (B & _). apply (leb_true _ _ B A). apply saturated_le; assumption.
Qed.
Theorem C122_dew_point saturation wave e (d : dframe float) d0 n tmin (temp : series float) a0 a1 kr mhp :
  n <> O -> f_index d = daily_index d0 n -> assoc "tmin" (f_cols d) = Some tmin -> length tmin = n -> map fst temp = hours_index d0 n ->
  exists out, disaggregate_humidity_gen saturation wave e d "dewpoint_regression" (Some temp) (Some a0) (Some a1) kr mhp false = Ok out /\ map fst out = hours_index d0 n /\
    forall i m, nth_error tmin i = Some m -> PrimFloat.is_finite (a0 + a1 * m)%float = true -> pressure (saturation (a0 + a1 * m)%float) ->
      let ts := values_on (d0 + Z.of_nat i) temp in
      let vs := values_on (d0 + Z.of_nat i) out in
      (forall x, In x ts -> pressure (saturation x)) ->
      length vs = length ts /\
      (forall h x v, nth_error ts h = Some x -> nth_error vs h = Some v ->
         percent v /\ (Rabs (fval v - rel_humidity (saturation (a0 + a1 * m)%float) (saturation x)) <= 3 / 10 ^ 14)%R) /\
      (forall h k x y v w, nth_error ts h = Some x -> nth_error ts k = Some y -> nth_error vs h = Some v -> nth_error vs k = Some w ->
         (saturation x <=? saturation y)%float = true -> (w <=? v)%float = true).
Proof.
  intros NE FI C L ET. destruct (dew_function saturation wave e d d0 n tmin temp a0 a1 kr nan_float NE L ET) as (h & EH & EI & V).
  eexists. split.
  { unfold disaggregate_humidity_gen. cbn [existsb String.eqb Ascii.eqb Bool.eqb orb negb]. unfold raw_humidity. cbn [String.eqb Ascii.eqb Bool.eqb orb].
    rewrite (fcol_daily d d0 n _ _ FI C L). cbv beta iota delta [bind]. try change (String.eqb "dewpoint_regression" "linear_dewpoint_variation") with false.
    refine (eq_trans (f_equal (fun r => match r with Ok a => Ok (map (fun p : Z * float => (fst p, clip1 n0 (n_ofZ 100) (snd p))) a) | Err x => Err x end) EH) _). reflexivity. }
  split; [rewrite map_map; exact EI|]. intros i m Hm FM PM ts vs HT.
  assert (EV : vs = map (fun x => saturated (saturation (a0 + a1 * m)%float) (saturation x)) ts).
  { unfold vs. rewrite clip_values, (V i m Hm), map_map; [reflexivity|]. apply finite_valid, ffin_spec, FM. }
  clearbody vs ts. split; [subst vs; apply map_length|]. apply dew_day; assumption.
Qed.
Print Assumptions C122_dew_point.

Theorem C122_minimal saturation wave e (d : dframe float) d0 n tmin (temp : series float) a0 a1 kr mhp :
  n <> O -> f_index d = daily_index d0 n -> assoc "tmin" (f_cols d) = Some tmin -> length tmin = n -> map fst temp = hours_index d0 n ->
  exists out, disaggregate_humidity_gen saturation wave e d "minimal" (Some temp) a0 a1 kr mhp false = Ok out /\ map fst out = hours_index d0 n /\
    forall i m, nth_error tmin i = Some m -> PrimFloat.is_finite m = true -> (0 <? m)%float = true -> pressure (saturation m) ->
      let ts := values_on (d0 + Z.of_nat i) temp in
      let vs := values_on (d0 + Z.of_nat i) out in
      (forall x, In x ts -> pressure (saturation x)) ->
      length vs = length ts /\
      (forall h x v, nth_error ts h = Some x -> nth_error vs h = Some v ->
         percent v /\ (Rabs (fval v - rel_humidity (saturation m) (saturation x)) <= 3 / 10 ^ 14)%R /\
         (x = m -> (100 - 3 / 10 ^ 14 <= fval v)%R)) /\
      (forall h k x y v w, nth_error ts h = Some x -> nth_error ts k = Some y -> nth_error vs h = Some v -> nth_error vs k = Some w ->
         (saturation x <=? saturation y)%float = true -> (w <=? v)%float = true).
Proof.
  intros NE FI C L ET. destruct (dew_function saturation wave e d d0 n tmin temp n0 n1 kr nan_float NE L ET) as (h & EH & EI & V).
  eexists. split.
  { unfold disaggregate_humidity_gen. cbn [existsb String.eqb Ascii.eqb Bool.eqb orb negb]. unfold raw_humidity. cbn [String.eqb Ascii.eqb Bool.eqb orb].
    rewrite (fcol_daily d d0 n _ _ FI C L). cbv beta iota delta [bind]. try change (String.eqb "dewpoint_regression" "linear_dewpoint_variation") with false.
    refine (eq_trans (f_equal (fun r => match r with Ok a => Ok (map (fun p : Z * float => (fst p, clip1 n0 (n_ofZ 100) (snd p))) a) | Err x => Err x end) EH) _). reflexivity. }
  split; [rewrite map_map; exact EI|]. intros i m Hm FM PO PM ts vs HT. apply ffin_spec in FM.
  destruct (fltb_correct 0%float m ffin_zero FM) as [P0|]; [|discriminate]. change (fval 0%float) with 0%R in P0.
  assert (EV : vs = map (fun x => saturated (saturation m) (saturation x)) ts).
  { unfold vs. rewrite clip_values, (V i m Hm), map_map, (identity_dew m FM P0); [reflexivity|]. rewrite (identity_dew m FM P0). apply finite_valid, FM. }
  clearbody vs ts. split; [subst vs; apply map_length|]. destruct (dew_day saturation (saturation m) ts vs HT PM EV) as [A B]. split; [|exact B].
  intros k x v Hx Hv. destruct (A k x v Hx Hv) as [A1 A2]. split; [exact A1|]. split; [exact A2|]. intros ->.
  assert (R : rel_humidity (saturation m) (saturation m) = 100%R).
  { unfold rel_humidity. destruct (pressure_spec _ PM) as [_ [Q _]]. pose proof (Flocq.Core.Raux.bpow_gt_0 Flocq.Core.Zaux.radix2 (-400)) as T0.
    replace (100 * fval (saturation m) / fval (saturation m))%R with 100%R by (field; lra). apply Rmin_left. lra. }
  rewrite R in A2. apply Flocq.Core.Raux.Rabs_le_inv in A2. lra.
Qed.
Print Assumptions C122_minimal.

(** at the daily minimum the value can be less than 100 *)
Definition ex_cold : dframe float := {| f_index := daily_index 19000 1; f_cols := [("tmin", [280]); ("hum", [60])]%float |}.
Definition ex_temp : series float := combine (hours_index 19000 1) (repeat 280%float 24).
Definition ex_pressure : float := 0x1.fbfb9d758205p+0%float.
Theorem C122_saturation_refuted : exists out v,
  disaggregate_humidity_gen (fun _ => ex_pressure) (fun _ _ => 0%float) modern ex_cold "minimal" (Some ex_temp) None None None None false = Ok out /\
  In v (values_on 19000 out) /\ (v <? 100)%float = true.
Proof.
  eexists. exists 0x1.8ffffffffffffp+6%float. split; [vm_compute; reflexivity|]. split; [|reflexivity]. cbn. left. reflexivity.
Qed.
Print Assumptions C122_saturation_refuted.

(** ** the hypotheses can be met *)
Definition ex_warmer : series float := combine (hours_index 19000 1) (repeat 280 12 ++ repeat 290 12)%float%list.
Definition ex_sat (x : float) : float := if (x <? 278)%float then 5%float else if (x <? 285)%float then 10%float else 20%float.
Example C122_met : means_within (fun l => (kahan l / n_ofZ 24)%float) /\
  match disaggregate_humidity_gen ex_sat (fun _ _ => 0%float) modern ex_cold "dewpoint_regression" (Some ex_warmer) (Some (-5)%float) (Some 1%float) None None false with
  | Ok raw => values_on 19000 raw = (repeat 50 12 ++ repeat 25 12)%float%list /\ map fst raw = hours_index 19000 1 /\ Forall partly (values_on 19000 raw)
  | Err _ => False end /\ percent 60 /\
  pressure (ex_sat 280) /\ (forall x, In x (values_on 19000 ex_warmer) -> pressure (ex_sat x)).
Proof.
  split; [exact mean_kahan|]. split.
  - vm_compute. split; [reflexivity|]. split; [reflexivity|]. repeat (apply Forall_cons; [reflexivity|]). apply Forall_nil.
  - split; [reflexivity|]. split; [reflexivity|]. intros x Hx. cbn in Hx.
    repeat (destruct Hx as [<-|Hx]; [reflexivity|]). destruct Hx.
Qed.
