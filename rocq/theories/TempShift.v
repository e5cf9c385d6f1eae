(** Proofs about get_shift_by_data. *)
From Coq Require Import String ZArith List Bool Reals Lia Lra Sorted.
From Verif Require Import Py Num Cal Series Trans UtilModel UtilModel2 Frame TempModel SpecBase SpecUtil SpecTemp
  TimeProofs IndexProofs DaysProofs InterpProofs SunProofs CourseProofs TempProofs.
Import ListNotations.
Open Scope Z_scope.

Definition fin_or_nan (x : xr) : Prop := match x with Fin _ | NaN => True | _ => False end.

Lemma first_max_keep rows t v : numeric (map snd rows) -> (forall u w, In (u, Fin w) rows -> (w <= v)%R) ->
  first_max rows (Some (t, Fin v)) = Some (t, Fin v).
Proof.
  induction rows as [|[u x] rows IH]; intros NU H; [reflexivity|]. cbn [first_max map snd] in *.
  inversion NU as [|? ? Hx NU']; subst.
  assert (H' : forall u0 w, In (u0, Fin w) rows -> (w <= v)%R) by (intros; eapply H; right; eassumption).
  destruct x as [w| | |]; try contradiction; cbn [n_isnan Num_xr xisnan]; [|apply IH; assumption].
  cbn [n_ltb Num_xr xltb]. destruct (Rltb_spec v w) as [L|L]; [|apply IH; assumption].
  specialize (H u w (or_introl eq_refl)). lra.
Qed.
Lemma first_max_at pre t v post best : numeric (map snd (pre ++ (t, Fin v) :: post)) ->
  (forall u w, In (u, Fin w) pre -> (w < v)%R) -> (forall u w, In (u, Fin w) post -> (w <= v)%R) ->
  match best with Some (_, Fin b) => (b < v)%R | None => True | _ => False end ->
  first_max (pre ++ (t, Fin v) :: post) best = Some (t, Fin v).
Proof.
  revert best; induction pre as [|[u x] pre IH]; intros best NU H1 H2 HB; cbn [app map snd] in NU; inversion NU as [|? ? Hx NU']; subst.
  - cbn [app first_max n_isnan Num_xr xisnan]. destruct best as [[u [b| | |]]|]; try contradiction.
    + cbn [n_ltb Num_xr xltb]. destruct (Rltb_spec b v); [|contradiction]. apply first_max_keep; assumption.
    + apply first_max_keep; assumption.
  - cbn [app first_max]. assert (H1' : forall u0 w, In (u0, Fin w) pre -> (w < v)%R) by (intros; eapply H1; right; eassumption).
    destruct x as [w| | |]; try contradiction; cbn [n_isnan Num_xr xisnan]; [|apply IH; assumption].
    apply IH; try assumption. pose proof (H1 u w (or_introl eq_refl)). destruct best as [[u' [b| | |]]|]; try contradiction; [|assumption].
    cbn [n_ltb Num_xr xltb]. destruct (Rltb b w); assumption.
Qed.
Lemma first_max_none rows : Forall (fun p => snd p = NaN) rows -> forall best, first_max rows best = best.
Proof. induction 1 as [|[u x] rows Hx F IH]; intro best; [reflexivity|]. cbn [first_max snd] in *. subst x. cbn [n_isnan Num_xr xisnan]. apply IH. Qed.

Lemma uniq_In x l : In x (uniq l) <-> In x l.
Proof.
  induction l as [|a l IH]; [reflexivity|]. cbn [uniq In]. rewrite filter_In, IH, negb_true_iff, Z.eqb_neq. destruct (Z.eq_dec a x); intuition.
Qed.
Lemma lookup_flat {A} (G : Z -> option A) d l :
  lookup (midnight d) (flat_map (fun d' => match G d' with Some x => [(midnight d', x)] | None => [] end) l) = if mem d l then G d else None.
Proof.
  induction l as [|a l IH]; [reflexivity|]. cbn [flat_map mem existsb]. fold (mem d l).
  destruct (Z.eqb_spec d a) as [->|NE]; cbn [orb].
  - destruct (G a) as [x|] eqn:E; cbn [app lookup].
    + rewrite Z.eqb_refl. reflexivity.
    + rewrite IH. destruct (mem a l); reflexivity.
  - destruct (G a) as [x|]; cbn [app lookup]; [|exact IH].
    destruct (Z.eqb_spec (midnight a) (midnight d)) as [Q|Q]; [unfold midnight, us_day in Q; lia|exact IH].
Qed.

Lemma rows_on_hours {A} (f : Z -> A) d0 n i : (i < n)%nat ->
  rows_on (d0 + Z.of_nat i) (map (fun t => (t, f t)) (hours_index d0 n))
  = map (fun h => (stamp (d0 + Z.of_nat i) h, f (stamp (d0 + Z.of_nat i) h))) (seq 0 24).
Proof.
  intro Hi. pose proof (values_on_map_hours (fun t => (t, f t)) d0 n i Hi) as V. unfold values_on in V.
  unfold rows_on. rewrite <- V. clear. generalize (hours_index d0 n). induction l as [|t l IH]; [reflexivity|].
  cbn [map filter fst]. change (date_of t) with (t / us_day). destruct (t / us_day =? d0 + Z.of_nat i); cbn [map snd]; [f_equal|]; exact IH.
Qed.

Lemma first_max_day (g : nat -> xr) d h : (forall k, (k < 24)%nat -> fin_or_nan (g k)) -> first_max_hour g h ->
  exists v, first_max (map (fun k => (stamp d k, g k)) (seq 0 24)) None = Some (stamp d h, v).
Proof.
  intros NU (Hh & v & E & H1 & H2). exists (Fin v).
  assert (SQ : seq 0 24 = seq 0 h ++ h :: seq (S h) (23 - h)).
  { replace 24%nat with (h + S (23 - h))%nat at 1 by lia. rewrite seq_app. cbn [seq]. reflexivity. }
  rewrite SQ, map_app. cbn [map]. rewrite E.
  assert (HK : forall u w l, In (u, Fin w) (map (fun k => (stamp d k, g k)) l) -> exists k, In k l /\ g k = Fin w).
  { intros u w l HI. apply in_map_iff in HI as (k & Q & HI). injection Q as _ Q. exists k. split; [exact HI|exact Q]. }
  apply first_max_at; [| | |exact I].
  - rewrite <- E. change ((stamp d h, g h) :: map (fun k => (stamp d k, g k)) (seq (S h) (23 - h))) with (map (fun k => (stamp d k, g k)) (h :: seq (S h) (23 - h))).
    rewrite <- map_app, <- SQ, map_map. apply Forall_forall. intros x Hx. apply in_map_iff in Hx as (k & <- & Hk). apply in_seq in Hk. apply NU. lia.
  - intros u w HI. apply HK in HI as (k & HI & Q). apply in_seq in HI. apply (H2 k w); [lia|exact Q].
  - intros u w HI. apply HK in HI as (k & HI & Q). apply in_seq in HI. apply (H1 k w); [lia|exact Q].
Qed.

Definition day_delta (lon tz : R) (d0 : Z) (hmax : nat -> option nat) (i : nat) : xr :=
  match hmax i with Some h => Fin (INR h - noon_R (doy_of_day (d0 + Z.of_nat i)) lon tz) | None => NaN end.

Lemma shift_table (f : Z -> xr) d0 n lon lat tz hmax :
  (forall t, fin_or_nan (f t)) ->
  (forall i, (i < n)%nat -> match hmax i with
     | Some h => first_max_hour (day_values f (d0 + Z.of_nat i)) h
     | None => forall h, (h < 24)%nat -> day_values f (d0 + Z.of_nat i) h = NaN end) ->
  let delta := daily d0 (map (day_delta lon tz d0 hmax) (seq 0 n)) in
  get_shift_by_data (map (fun t => (t, f t)) (hours_index d0 n)) (Fin lon) (Fin lat) (Fin tz)
  = map (fun m => (m, nanmean (map snd (filter (fun p => month_of (fst p) =? m) delta))))
      (filter (fun m => existsb (fun p => month_of (fst p) =? m) delta) (map Z.of_nat (seq 1 12))).
Proof.
  intros NU HM. cbv zeta. set (s := map (fun t => (t, f t)) (hours_index d0 n)). unfold get_shift_by_data. cbv zeta.
  set (obs := flat_map _ (uniq _)). set (st := get_sun_times _ _ _ _).
  assert (E : map (fun p : Z * sun_row => (fst p, match lookup (fst p) obs with Some h => (h - sunnoon (snd p))%num | None => NaN end)) st
              = daily d0 (map (day_delta lon tz d0 hmax) (seq 0 n))).
  { unfold st. unfold index at 1. rewrite (resample_hours _ d0 n) by (unfold s; rewrite map_map; apply map_id). rewrite map_map. cbn [fst].
    unfold get_sun_times. rewrite !map_map. cbn [fst snd]. rewrite daily_seq. apply map_ext_in. intros i Hi. apply in_seq in Hi. f_equal.
    rewrite day_start_date. rewrite sun_times1_ok. cbv zeta. cbn [sunnoon].
    assert (EO : lookup ((d0 + Z.of_nat i) * us_day) obs = match first_max (rows_on (d0 + Z.of_nat i) s) None with Some (t, _) => Some (n_ofZ (hour_of t)) | None => None end).
    { unfold obs. set (G := fun d => match first_max (rows_on d s) None with Some (t, _) => Some ((n_ofZ (hour_of t)) : xr) | None => None end).
      transitivity (lookup (midnight (d0 + Z.of_nat i)) (flat_map (fun d' => match G d' with Some x => [(midnight d', x)] | None => [] end) (uniq (map date_of (index s))))).
      - unfold midnight at 1. f_equal. apply flat_map_ext. intro a. unfold G. destruct (first_max (rows_on a s) None) as [[t v]|]; reflexivity.
      - rewrite lookup_flat. assert (M : mem (d0 + Z.of_nat i) (uniq (map date_of (index s))) = true).
        { apply mem_In, uniq_In. replace (index s) with (hours_index d0 n) by (unfold s, index; rewrite map_map; symmetry; apply map_id).
          apply in_map_iff. exists (stamp (d0 + Z.of_nat i) 0). split; [apply stamp_date; lia|]. apply in_hours. exists i, 0%nat. repeat split; lia. }
        rewrite M. reflexivity. }
    rewrite EO. unfold s. rewrite rows_on_hours by lia.
    specialize (HM i ltac:(lia)). unfold day_delta. destruct (hmax i) as [h|].
    - destruct (first_max_day (day_values f (d0 + Z.of_nat i)) (d0 + Z.of_nat i) h) as (v & EV); [intros k _; apply NU|exact HM|].
      change (fun h0 : nat => (stamp (d0 + Z.of_nat i) h0, f (stamp (d0 + Z.of_nat i) h0))) with (fun k => (stamp (d0 + Z.of_nat i) k, day_values f (d0 + Z.of_nat i) k)).
      rewrite EV. destruct HM as [Hh _]. rewrite stamp_hour by exact Hh. cbn [n_ofZ Num_xr n_sub xsub xopp xadd]. rewrite INR_IZR_INZ. reflexivity.
    - rewrite first_max_none; [reflexivity|]. apply Forall_forall. intros p Hp. apply in_map_iff in Hp as (h & <- & Hh). apply in_seq in Hh. cbn [snd]. apply (HM h). lia. }
  rewrite E. reflexivity.
Qed.

Lemma numeric_delta lon tz d0 hmax m l : numeric (map snd (filter (fun p => month_of (fst p) =? m) (daily d0 (map (day_delta lon tz d0 hmax) l)))).
Proof.
  apply Forall_forall. intros x Hx. apply in_map_iff in Hx as ([t y] & <- & H). apply filter_In in H as [H _]. cbn [snd].
  unfold daily in H. apply in_combine_r in H. apply in_map_iff in H as (i & <- & _). unfold day_delta. destruct (hmax i); exact I.
Qed.

(** the differences of the days of month m that have a maximum *)
Definition month_deltas (lon tz : R) (d0 : Z) (hmax : nat -> option nat) (m : Z) (n : nat) : list R :=
  flat_map (fun i => if month_of_day (d0 + Z.of_nat i) =? m
                     then match hmax i with Some h => [(INR h - noon_R (doy_of_day (d0 + Z.of_nat i)) lon tz)%R] | None => [] end
                     else []) (seq 0 n).

Lemma fins_delta lon tz d0 hmax m n :
  fins (map snd (filter (fun p => month_of (fst p) =? m) (daily d0 (map (day_delta lon tz d0 hmax) (seq 0 n))))) = month_deltas lon tz d0 hmax m n.
Proof.
  rewrite daily_seq. unfold month_deltas. generalize (seq 0 n). induction l as [|i l IH]; [reflexivity|].
  cbn [map filter flat_map fst]. unfold month_of at 1. rewrite day_start_date. destruct (month_of_day (d0 + Z.of_nat i) =? m); cbn [map snd app]; [|exact IH].
  unfold fins in *. cbn [flat_map]. rewrite IH. unfold day_delta at 1. destruct (hmax i); reflexivity.
Qed.

Lemma shift_entry (f : Z -> xr) d0 n lon lat tz hmax m :
  (forall t, fin_or_nan (f t)) ->
  (forall i, (i < n)%nat -> match hmax i with
     | Some h => first_max_hour (day_values f (d0 + Z.of_nat i)) h
     | None => forall h, (h < 24)%nat -> day_values f (d0 + Z.of_nat i) h = NaN end) ->
  entry_of m (get_shift_by_data (map (fun t => (t, f t)) (hours_index d0 n)) (Fin lon) (Fin lat) (Fin tz))
  = if existsb (fun i => month_of_day (d0 + Z.of_nat i) =? m) (seq 0 n)
    then Some (match month_deltas lon tz d0 hmax m n with [] => NaN | l => Fin (Rmean l) end) else None.
Proof.
  intros NU HM. rewrite (shift_table f d0 n lon lat tz hmax NU HM). cbv zeta.
  set (delta := daily d0 (map (day_delta lon tz d0 hmax) (seq 0 n))). rewrite entry_lookup.
  assert (EX : existsb (fun p => month_of (fst p) =? m) delta = existsb (fun i => month_of_day (d0 + Z.of_nat i) =? m) (seq 0 n)).
  { unfold delta. rewrite daily_seq. generalize (seq 0 n). induction l as [|i l IH]; [reflexivity|]. cbn [map existsb fst]. unfold month_of at 1. rewrite day_start_date, IH. reflexivity. }
  rewrite <- EX. destruct (existsb (fun p => month_of (fst p) =? m) delta) eqn:E.
  - rewrite (lookup_map_id (fun m => nanmean (map snd (filter (fun p => month_of (fst p) =? m) delta)))).
    + f_equal. destruct (month_deltas lon tz d0 hmax m n) as [|a l] eqn:ED.
      * apply nanmean_empty; [apply numeric_delta|]. unfold delta. rewrite fins_delta. exact ED.
      * rewrite nanmean_numeric; [|apply numeric_delta|unfold delta; rewrite fins_delta, ED; discriminate]. unfold delta. rewrite fins_delta, ED. reflexivity.
    + apply filter_In. split; [|exact E].
      apply existsb_exists in E as ([t v] & _ & Q). apply Z.eqb_eq in Q. cbn [fst] in Q. pose proof (month_range (date_of t)) as R. unfold month_of in Q. rewrite Q in R.
      apply in_map_iff. exists (Z.to_nat m). split; [lia|]. apply in_seq. lia.
  - apply lookup_none. intro HI. apply in_map_iff in HI as ([k v] & Q & HI). cbn [fst] in Q. subst k. apply in_map_iff in HI as (m' & Q & HI). injection Q as -> _.
    apply filter_In in HI as [_ HI]. congruence.
Qed.
