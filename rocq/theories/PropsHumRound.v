(** Property C110: humidity between daily minimum and maximum in binary64 arithmetic. *)
From Coq Require Import String ZArith List Bool Lia Reals Lra Floats.
From Verif Require Import Py Num Cal Series UtilModel Frame HumModel SpecBase SpecUtil DaysProofs
  F64 SpecCourseRound CourseRound SpecSineRound WindRound SpecHumRound HumRound.
Import ListNotations.
Open Scope Z_scope.

Lemma finite_valid x : ffin x -> n_isnan x = false.
Proof. intro F. cbn [n_isnan Num_f64]. unfold f64_isnan. apply negb_false_iff. destruct (feqb_correct x x F F) as [_|K]; [reflexivity|]. exfalso; apply K; reflexivity. Qed.

Theorem C110_min_max saturation wave e (d : dframe float) d0 n hmin hmax tmin tmax (temp : series float) a0 a1 kr mhp :
  n <> O -> f_index d = daily_index d0 n ->
  assoc "hum_min" (f_cols d) = Some hmin -> assoc "hum_max" (f_cols d) = Some hmax ->
  assoc "tmin" (f_cols d) = Some tmin -> assoc "tmax" (f_cols d) = Some tmax ->
  length hmin = n -> length hmax = n -> length tmin = n -> length tmax = n -> map fst temp = hours_index d0 n ->
  exists out, disaggregate_humidity_gen saturation wave e d "min_max" (Some temp) a0 a1 kr mhp false = Ok out /\ map fst out = hours_index d0 n /\
    forall i lo hi a b, nth_error tmin i = Some lo -> nth_error tmax i = Some hi -> nth_error hmin i = Some a -> nth_error hmax i = Some b ->
      humid_day lo hi a b ->
      let ts := values_on (d0 + Z.of_nat i) temp in
      let vs := values_on (d0 + Z.of_nat i) out in
      length vs = length ts /\
      (forall h x v, nth_error ts h = Some x -> nth_error vs h = Some v -> warm lo hi x ->
         PrimFloat.is_finite v = true /\ ((0 <=? v) && (v <=? b))%float = true /\
         ((x =? lo)%float = true -> (v =? b)%float = true) /\
         (Rabs (fval v - humid_exact lo hi a b x) <= 2 / 10 ^ 13)%R) /\
      (forall h k x y v w, nth_error ts h = Some x -> nth_error ts k = Some y -> nth_error vs h = Some v -> nth_error vs k = Some w ->
         warm lo hi x -> warm lo hi y -> (x <=? y)%float = true -> (w <=? v)%float = true).
Proof.
  intros NE FI C1 C2 C3 C4 L1 L2 L3 L4 ET.
  destruct (min_max_function (N := Num_f64) saturation wave e d d0 n hmin hmax tmin tmax temp a0 a1 kr mhp eq_refl NE FI C1 C2 C3 C4 L1 L2 L3 L4 ET) as (out & E & EI & V).
  exists out. split; [exact E|]. split; [exact EI|]. intros i lo hi a b H3 H4 H1 H2 HD ts vs.
  destruct (bounds lo hi a b HD) as (Fl & Fh & _ & _ & LH & Fa & Fb & AB & B1).
  assert (EV : vs = map (humid lo hi a b) ts) by (apply (V i lo hi a b H3 H4 H1 H2); apply finite_valid; assumption).
  clearbody ts vs. subst vs. split; [apply map_length|]. split.
  - intros h x v Hx Hv W. rewrite nth_error_map, Hx in Hv. injection Hv as <-.
    destruct (humid_facts lo hi a b HD x W) as (F & B & _ & ER). destruct (warm_spec lo hi a b HD x W) as (Fx & _).
    split; [apply ffin_spec, F|]. split; [|split; [|exact ER]].
    + apply andb_true_iff. split; [apply (leb_true _ _ ffin_zero F); exact (proj1 B)|apply (leb_true _ _ F Fb); exact (proj2 B)].
    + intro Q. apply (eqb_true _ _ Fx Fl) in Q. apply (eqb_true _ _ F Fb). apply humid_at_lo; assumption.
  - intros h k x y v w Hx Hy Hv Hw Wx Wy L. rewrite nth_error_map, Hx in Hv. rewrite nth_error_map, Hy in Hw. injection Hv as <-. injection Hw as <-.
    destruct (warm_spec lo hi a b HD x Wx) as (Fx & _). destruct (warm_spec lo hi a b HD y Wy) as (Fy & _). apply (leb_true _ _ Fx Fy) in L.
    destruct (humid_facts lo hi a b HD x Wx) as (F & _). destruct (humid_facts lo hi a b HD y Wy) as (F' & _).
    apply (leb_true _ _ F' F). apply humid_antitone; assumption.
Qed.
Print Assumptions C110_min_max.

(** the daily minimum is not a lower bound: 0.1 and 97.3 percent, temperatures from 3.25 to 12.5 *)
Definition ex_humid : dframe float := {| f_index := daily_index 19000 1;
  f_cols := [("tmin", [3.25]); ("tmax", [12.5]); ("hum_min", [0x1.999999999999ap-4]); ("hum_max", [0x1.8533333333333p+6])]%float |}.
Definition ex_warm : list float := (repeat 3.25 12 ++ repeat 12.5 12)%float%list.
Theorem C110_minimum_refuted : exists out v,
  disaggregate_humidity_gen (fun x => x) (fun _ _ => 0%float) modern ex_humid "min_max" (Some (combine (hours_index 19000 1) ex_warm)) None None None None false = Ok out /\
  In v (values_on 19000 out) /\ (v <? 0x1.999999999999ap-4)%float = true.
Proof.
  eexists. exists 0x1.99999999998p-4%float. split; [vm_compute; reflexivity|]. split; [|reflexivity].
  cbn. do 12 right. left. reflexivity.
Qed.
Print Assumptions C110_minimum_refuted.

(** ** the hypotheses can be met *)
Example C110_met : humid_day 3.25 12.5 0x1.999999999999ap-4 0x1.8533333333333p+6 /\ warm 3.25 12.5 8.5 /\ warm 3.25 12.5 12.5 /\
  map fst (combine (hours_index 19000 1) ex_warm) = hours_index 19000 1 /\ values_on 19000 (combine (hours_index 19000 1) ex_warm) = ex_warm.
Proof.
  assert (V1 : fval 3.25%float = (13 / 4)%R) by (unfold fval; vm_compute; lra). assert (V2 : fval 12.5%float = (25 / 2)%R) by (unfold fval; vm_compute; lra).
  assert (V3 : fval 8.5%float = (17 / 2)%R) by (unfold fval; vm_compute; lra).
  split; [repeat split|]. split; [split; [reflexivity|split; [reflexivity|rewrite V1, V2, V3; lra]]|].
  split; [split; [reflexivity|split; [reflexivity|rewrite V1, V2; lra]]|]. split; reflexivity.
Qed.
