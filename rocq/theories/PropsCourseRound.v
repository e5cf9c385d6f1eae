(** Property C102: mean courses and 'mean_course_min_max' in binary64 arithmetic. *)
From Coq Require Import String ZArith List Bool Lia Reals Lra Floats.
From Verif Require Import Py Num Cal Series UtilModel UtilModel2 Frame TempModel SpecBase SpecUtil SpecTemp TimeProofs IndexProofs DaysProofs
  CourseProofs TempProofs TempCourse F64 CascadeFloat CascadeRound FiveRound SpecCourseRound CourseModel CourseRound.
Import ListNotations.
Open Scope Z_scope.

Lemma lookup_day_column g h : (h < 24)%nat -> length g = 24%nat -> lookup (Z.of_nat h) (day_column g) = nth_error g h.
Proof.
  intros Hh L. unfold day_column. do 24 (destruct g as [|? g]; [discriminate L|]). destruct g; [|discriminate L].
  do 24 (destruct h as [|h]; [reflexivity|]). lia.
Qed.

(** ** the table *)
Lemma group_filter m h s : map snd (filter (fun p => (month_of (fst p) =? m) && (hour_of (fst p) =? h)) s) = group_of m h s.
Proof.
  induction s as [|[t v] s IH]; [reflexivity|]. cbn [filter fst group_of]. destruct (Z.eq_dec (month_of t) m) as [->|M].
  - rewrite Z.eqb_refl. cbn [andb]. destruct (Z.eq_dec (hour_of t) h) as [->|H].
    + rewrite Z.eqb_refl. cbn [map snd]. f_equal. exact IH.
    + apply Z.eqb_neq in H. rewrite H. exact IH.
  - apply Z.eqb_neq in M. rewrite M. exact IH.
Qed.
Lemma lookup_keys {A} (f : Z -> A) k ks : lookup k (map (fun m => (m, f m)) ks) = if in_dec Z.eq_dec k ks then Some (f k) else None.
Proof.
  induction ks as [|m ks IH]; [reflexivity|]. cbn [map lookup]. destruct (Z.eqb_spec m k) as [->|NE].
  - destruct (in_dec Z.eq_dec k (k :: ks)) as [_|N]; [reflexivity|]. exfalso. apply N. left. reflexivity.
  - rewrite IH. destruct (in_dec Z.eq_dec k ks) as [I|N], (in_dec Z.eq_dec k (m :: ks)) as [I'|N']; try reflexivity.
    + exfalso. apply N'. right. exact I.
    + exfalso. destruct I' as [I'|I']; [exact (NE I')|exact (N I')].
Qed.
(** a column for every month that occurs; in it, for every hour that occurs in the record, the mean of that month and hour *)
Theorem C102_table (mean : list float -> float) s m :
  match entry_of m (mean_course_with mean s false) with
  | None => ~ (exists t v, In (t, v) s /\ month_of t = m)
  | Some raw => (exists t v, In (t, v) s /\ month_of t = m) /\ NoDup (map fst raw) /\
      (forall h, In h (map fst raw) <-> exists t v, In (t, v) s /\ hour_of t = h) /\
      forall h v, In (h, v) raw -> v = mean (group_of m h s)
  end.
Proof.
  assert (OCC : forall (f : Z -> Z) x, existsb (fun t => f t =? x) (index s) = true <-> exists t v, In (t, v) s /\ f t = x).
  { intros f x. rewrite existsb_exists. split.
    - intros (t & Ht & E). apply in_map_iff in Ht as ([t' v] & <- & I). exists t', v. split; [exact I|]. apply Z.eqb_eq. exact E.
    - intros (t & v & I & E). exists t. split; [apply in_map_iff; exists (t, v); split; [reflexivity|exact I]|]. apply Z.eqb_eq. exact E. }
  rewrite entry_lookup. unfold mean_course_with. rewrite lookup_keys.
  destruct (in_dec _ _ _) as [I|N].
  - apply filter_In in I as [_ I]. apply OCC in I. split; [exact I|]. rewrite map_map. cbn [fst]. rewrite map_id. split; [|split].
    + apply NoDup_filter. apply FinFun.Injective_map_NoDup; [intros x y; lia|apply seq_NoDup].
    + intro h. rewrite filter_In, OCC. split; [tauto|]. intro H. split; [|exact H]. destruct H as (t & _ & _ & <-). pose proof (hour_range t).
      apply in_map_iff. exists (Z.to_nat (hour_of t)). split; [lia|]. apply in_seq. lia.
    + intros h v H. apply in_map_iff in H as (h' & E & _). injection E as -> <-. rewrite group_filter. reflexivity.
  - intro H. apply N. apply filter_In. rewrite OCC. split; [|exact H]. destruct H as (t & _ & _ & <-). unfold month_of. pose proof (month_range (date_of t)).
    apply in_map_iff. exists (Z.to_nat (month_of_day (date_of t))). split; [lia|]. apply in_seq. lia.
Qed.
Print Assumptions C102_table.
Theorem C102_normalised (mean : list float -> float) s m raw :
  entry_of m (mean_course_with mean s false) = Some raw ->
  Forall (fun p => tame (snd p)) raw -> (exists p q, In p raw /\ In q raw /\ (snd p <? snd q)%float = true) ->
  exists norm, entry_of m (mean_course_with mean s true) = Some norm /\ scaled raw norm.
Proof.
  intros E HT HD. exists (normalise raw). split; [|exact (normalise_scaled raw HT HD)].
  rewrite entry_lookup in *. unfold mean_course_with in *. revert E.
  induction (filter (fun m => existsb (fun t => month_of t =? m) (index s)) (map Z.of_nat (seq 1 12))) as [|k l IH]; [discriminate|].
  cbn [map lookup]. destruct (k =? m); [|exact IH]. intro E.
  exact (f_equal (option_map normalise) E).
Qed.
Print Assumptions C102_normalised.

(** ** the temperatures *)
Theorem C102_min_max e (d : dframe float) d0 tmin tmax c (g : Z -> list float) :
  tmin <> [] -> length tmax = length tmin ->
  f_index d = daily_index d0 (length tmin) -> assoc "tmin" (f_cols d) = Some tmin -> assoc "tmax" (f_cols d) = Some tmax ->
  (forall i, (i < length tmin)%nat -> let m := month_of_day (d0 + Z.of_nat i) in
     length (g m) = 24%nat /\ entry_of m c = Some (day_column (g m))) ->
  exists out, temp_course_min_max e d c = Ok out /\ map fst out = hours_index d0 (length tmin) /\
    forall i lo hi, nth_error tmin i = Some lo -> nth_error tmax i = Some hi -> tame lo -> tame hi -> (lo <=? hi)%float = true ->
      let vs := g (month_of_day (d0 + Z.of_nat i)) in
      let ws := values_on (d0 + Z.of_nat i) out in
      Forall in_unit vs ->
      length ws = 24%nat /\
      (forall h v w, nth_error vs h = Some v -> nth_error ws h = Some w -> follows lo hi v w) /\
      (forall h k v v' w w', nth_error vs h = Some v -> nth_error vs k = Some v' -> nth_error ws h = Some w -> nth_error ws k = Some w' ->
         (v <=? v')%float = true -> (w <=? w')%float = true).
Proof.
  intros NE L FI C1 C2 HC.
  rewrite (min_max_shape e d d0 tmin tmax c (fun day h => nth h (g (month_of_day day)) n_nan) NE L FI C1 C2).
  2:{ intros i h Hi Hh. destruct (HC i Hi) as [LG EC]. unfold course_value. rewrite stamp_month, stamp_hour by exact Hh.
      rewrite entry_lookup in EC. rewrite EC, lookup_day_column by assumption. rewrite (nth_error_nth' (g (month_of_day (d0 + Z.of_nat i))) h n_nan) by lia. reflexivity. }
  eexists. split; [reflexivity|]. split; [rewrite map_map; apply map_id|].
  intros i lo hi E1 E2 T1 T2 LE vs ws HU.
  assert (Hi : (i < length tmin)%nat) by (apply nth_error_Some; congruence).
  destruct (HC i Hi) as [LG _]. fold vs in LG.
  assert (EW : ws = map (course_w lo hi) vs).
  { unfold ws. rewrite (values_on_map_hours (fun t => (nth (Z.to_nat (hour_of t)) (g (month_of_day (date_of t))) n_nan * (at_day d0 tmax n_nan t - at_day d0 tmin n_nan t) + at_day d0 tmin n_nan t)%num)) by exact Hi.
    assert (EV : vs = map (fun h => nth h vs n_nan) (seq 0 24)).
    { clear - LG. do 24 (destruct vs as [|? vs]; [discriminate LG|]). destruct vs; [reflexivity|discriminate LG]. }
    rewrite EV at 1. rewrite map_map. apply map_ext_in. intros h Hh. apply in_seq in Hh.
    rewrite !at_day_stamp, stamp_hour, stamp_date, Nat2Z.id by lia.
    rewrite (nth_error_nth _ _ _ E1), (nth_error_nth _ _ _ E2). reflexivity. }
  clearbody ws. subst ws. split; [rewrite map_length; exact LG|].
  assert (UU : forall h v, nth_error vs h = Some v -> in_unit v) by (intros h v H; rewrite Forall_forall in HU; apply HU; eapply nth_error_In; exact H).
  split.
  - intros h v w Hv Hw. rewrite nth_error_map, Hv in Hw. injection Hw as <-. apply value_follows; eauto.
  - intros h k v v' w w' Hv Hv' Hw Hw' O. rewrite nth_error_map, Hv in Hw. rewrite nth_error_map, Hv' in Hw'. injection Hw as <-. injection Hw' as <-.
    apply value_mono; eauto.
Qed.
Print Assumptions C102_min_max.

(** the same function of the numbers is what [disaggregate_temperature] computes *)
Theorem C102_same_formula e (d : dframe xr) mmt modn md c st :
  disaggregate_temperature e d "mean_course_min_max" mmt modn md (Some c) st = temp_course_min_max e d c.
Proof. exact (course_model_agrees e d mmt modn md c st). Qed.
Print Assumptions C102_same_formula.

(** the daily maximum is not an upper bound: -7.9 and 3.9 degrees, course 0 to 1 *)
Definition ex_frame : dframe float := {| f_index := daily_index 0 1; f_cols := [("tmin"%string, [(-0x1.f99999999999ap+2)%float]); ("tmax"%string, [0x1.f333333333333p+1%float])] |}.
Definition ex_column : list float := repeat 0%float 12 ++ repeat 1%float 12.
Definition ex_course : course float := [(1, day_column ex_column)].
Theorem C102_maximum_refuted : exists out w, temp_course_min_max modern ex_frame ex_course = Ok out /\
  In w (values_on 0 out) /\ (0x1.f333333333333p+1 <? w)%float = true.
Proof.
  eexists. exists (1 * (0x1.f333333333333p+1 - -0x1.f99999999999ap+2) + -0x1.f99999999999ap+2)%float. split; [vm_compute; reflexivity|].
  split; [|vm_compute; reflexivity]. vm_compute. do 23 right. left. reflexivity.
Qed.
Print Assumptions C102_maximum_refuted.

Example C102_met : Forall in_unit ex_column /\ tame (-0x1.f99999999999ap+2)%float /\ tame 0x1.f333333333333p+1%float /\ (-0x1.f99999999999ap+2 <=? 0x1.f333333333333p+1)%float = true /\
  length ex_column = 24%nat /\ entry_of (month_of_day (0 + Z.of_nat 0)) ex_course = Some (day_column ex_column).
Proof. repeat split; try reflexivity. unfold ex_column. repeat constructor. Qed.
Example C102_normalised_met : exists raw, entry_of 1 (mean_course_with (fun l => hd 0%float l) [(0, 3.5%float); (us_hour, 7.25%float)] false) = Some raw /\
  Forall (fun p => tame (snd p)) raw /\ exists p q, In p raw /\ In q raw /\ (snd p <? snd q)%float = true.
Proof.
  eexists. split; [vm_compute; reflexivity|]. split; [repeat constructor|].
  exists (0, 3.5%float), (1, 7.25%float). split; [left; reflexivity|]. split; [right; left; reflexivity|reflexivity].
Qed.
