(** Property C112: daily aggregates of hourly doubles. *)
From Coq Require Import String ZArith List Bool Lia Reals Lra Floats.
From Verif Require Import Py Num Cal Series UtilModel UtilModel2 SpecBase SpecUtil TimeProofs DaysProofs CourseProofs
  F64 CascadeFloat CascadeRound SpecMasterRound SpecFiveRound FiveModel FiveRound CourseRound SpecDailyRound DailyModel DailyRound.
Import ListNotations.
Open Scope Z_scope.

(** ** what pandas may do to add up: any order of additions, or compensated summation *)
Theorem C112_sums : (forall tot, adds_known tot -> day_sums_within tot) /\ adds_known (nansum (T := float)) /\ day_sums_within kahan.
Proof. split; [exact adds_day|]. split; [exact left_to_right_day|exact kahan_day]. Qed.
Print Assumptions C112_sums.

(** ** with plain summation this is the function of C29 *)
Theorem C112_same_formula {T} {N : Num T} (df : frame T) : daily_from_hourly_with nansum df = daily_from_hourly df.
Proof. reflexivity. Qed.
Print Assumptions C112_same_formula.

(** [daily_from_hourly] applied to a frame with the one column [name]; the value of column [out] on [day] *)
Definition daily_value (tot : list float -> float) (name out : string) (s : series float) (day : Z) : option float :=
  match get_col out (daily_from_hourly_with tot [(name, s)]) with Some c => entry_of (midnight day) c | None => None end.
Lemma column_value tot name out (agg : list float -> float) (s : series float) t : In t (map fst s) ->
  get_col out (daily_from_hourly_with tot [(name, s)]) = Some (resample us_day agg s) ->
  daily_value tot name out s (date_of t) = Some (agg (values_on (date_of t) s)).
Proof. intros I E. unfold daily_value. rewrite E, entry_lookup. exact (resample_day agg s t I). Qed.

(** ** minimum and maximum are exact, the mean is off by 3*10^-14 of itself and may leave [min, max] by that much only *)
Theorem C112_mean_min_max tot (s : series float) t :
  day_sums_within tot -> In t (map fst s) -> hourly_day (values_on (date_of t) s) ->
  let l := known (values_on (date_of t) s) in
  exists mean lo hi,
    daily_value tot "temp" "temp" s (date_of t) = Some mean /\
    daily_value tot "temp" "tmin" s (date_of t) = Some lo /\ daily_value tot "temp" "tmax" s (date_of t) = Some hi /\
    daily_value tot "hum" "hum" s (date_of t) = Some mean /\
    daily_value tot "hum" "hum_min" s (date_of t) = Some lo /\ daily_value tot "hum" "hum_max" s (date_of t) = Some hi /\
    daily_value tot "wind" "wind" s (date_of t) = Some mean /\ daily_value tot "glob" "glob" s (date_of t) = Some mean /\
    In lo l /\ In hi l /\ (forall x, In x l -> ((lo <=? x) && (x <=? hi))%float = true) /\
    PrimFloat.is_finite mean = true /\ (0 <=? mean)%float = true /\
    (Rabs (fval mean - Rmean (map fval l)) <= 3 / 10 ^ 14 * Rmean (map fval l) + 1 / 10 ^ 300)%R /\
    (fval lo - (3 / 10 ^ 14 * fval hi + 1 / 10 ^ 300) <= fval mean <= fval hi + (3 / 10 ^ 14 * fval hi + 1 / 10 ^ 300))%R.
Proof.
  intros HT I HD l. set (day := values_on (date_of t) s) in *.
  exists (mean_with tot day), (nanmin day), (nanmax day).
  do 8 (split; [apply column_value; [exact I|reflexivity]|]).
  destruct (mean_day tot day HT HD) as (Fm & M0 & ME). destruct (extremes_day day HD) as (I1 & I2 & B). fold l in ME, I1, I2, B.
  assert (FF : forall x, In x l -> ffin x).
  { intros x Hx. destruct HD as (_ & M & _). apply Forall_moderate in M. fold l in M. rewrite Forall_forall in M. destruct (M x Hx) as ((F & _) & _). exact F. }
  split; [exact I1|]. split; [exact I2|]. split.
  { intros x Hx. apply andb_true_iff. split; [apply (leb_true _ _ (FF _ I1) (FF _ Hx)); apply B, Hx|apply (leb_true _ _ (FF _ Hx) (FF _ I2)); apply B, Hx]. }
  split; [apply ffin_spec, Fm|]. split; [apply (leb_true _ _ ffin_zero Fm); exact M0|]. split; [exact ME|].
  assert (NE : map fval l <> []) by (destruct HD as (_ & _ & NE); fold l in NE; destruct l; [contradiction|discriminate]).
  destruct (Rmean_bounds (map fval l) (fval (nanmin day)) (fval (nanmax day)) NE) as [A C].
  { intros x Hx. apply in_map_iff in Hx as (y & <- & Hy). apply B, Hy. }
  apply Flocq.Core.Raux.Rabs_le_inv in ME. lra.
Qed.
Print Assumptions C112_mean_min_max.

(** ** sums *)
Theorem C112_sum_columns tot (s : series float) t :
  day_sums_within tot -> In t (map fst s) -> hourly_day (values_on (date_of t) s) ->
  let total := Rsum (map fval (known (values_on (date_of t) s))) in
  exists p h, daily_value tot "precip" "precip" s (date_of t) = Some p /\ daily_value tot "ssd" "ssd" s (date_of t) = Some h /\
    PrimFloat.is_finite p = true /\ PrimFloat.is_finite h = true /\
    (Rabs (fval p - total) <= 28 / 10 ^ 15 * total)%R /\
    (Rabs (fval h - total / 60) <= 3 / 10 ^ 14 * (total / 60) + 1 / 10 ^ 300)%R.
Proof.
  intros HT I HD total. set (day := values_on (date_of t) s) in *. destruct (HT day HD) as (Ft & T0 & E). assert (Ft' := Ft). apply ffin_spec in Ft.
  exists (tot day), (tot day / n_ofZ 60)%float. split; [apply column_value; [exact I|reflexivity]|]. split.
  { unfold daily_value. cbn [daily_from_hourly_with add_col get_col String.eqb Ascii.eqb Bool.eqb app].
    rewrite entry_lookup. set (f := fun p : Z * float => _).
    assert (G : forall (c : series float) v, lookup (midnight (date_of t)) c = Some v -> lookup (midnight (date_of t)) (map f c) = Some (v / n_ofZ 60)%float).
    { intros c v. induction c as [|[u w] c IH]; [discriminate|]. cbn [lookup map f fst snd]. destruct (u =? midnight (date_of t)); [intro Q; injection Q as ->; reflexivity|exact IH]. }
    apply G. exact (resample_day tot s t I). }
  destruct (part_of_sum day (tot day) 60 HD ltac:(lia) Ft T0 E) as (F & _ & C).
  split; [exact Ft'|]. split; [apply ffin_spec, F|]. split; [exact E|exact C].
Qed.
Print Assumptions C112_sum_columns.

(** ** the mean of a constant day can exceed its maximum, with plain and with compensated summation *)
Definition constant_day (x : float) : series float := map (fun t => (t, x)) (hours_index 0 1).
Theorem C112_mean_within_refuted :
  (exists m h, daily_value nansum "temp" "temp" (constant_day 0x1.253851eb851ecp+8) 0 = Some m /\
     daily_value nansum "temp" "tmax" (constant_day 0x1.253851eb851ecp+8) 0 = Some h /\ (h <? m)%float = true) /\
  (exists m h, daily_value kahan "temp" "temp" (constant_day 0x1.c81eb851eb852p+7) 0 = Some m /\
     daily_value kahan "temp" "tmax" (constant_day 0x1.c81eb851eb852p+7) 0 = Some h /\ (h <? m)%float = true).
Proof. split; eexists; eexists; (split; [vm_compute; reflexivity|]; split; [vm_compute; reflexivity|reflexivity]). Qed.
Print Assumptions C112_mean_within_refuted.

(** ** the hypotheses can be met: hours with a gap *)
Definition ex_hours : series float := [(0, 281.25%float); (us_hour, nan); (2 * us_hour, 290.5%float); (3 * us_hour, 290.5%float)].
Example C112_met : In (2 * us_hour) (map fst ex_hours) /\ hourly_day (values_on (date_of (2 * us_hour)) ex_hours) /\
  known (values_on (date_of (2 * us_hour)) ex_hours) = [281.25; 290.5; 290.5]%float.
Proof.
  split; [right; right; left; reflexivity|]. assert (E : values_on (date_of (2 * us_hour)) ex_hours = [281.25; nan; 290.5; 290.5]%float) by reflexivity.
  rewrite E. split; [|reflexivity]. split; [cbn; lia|]. split; [|discriminate]. repeat constructor.
Qed.
