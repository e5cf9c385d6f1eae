(** Property C118: what each disaggregation call needs, and what it raises when something is missing. *)
From Coq Require Import String ZArith List Bool Reals Sorted Lia Lra.
From Verif Require Import Py Num Cal Series Frame SpecBase TimeProofs IndexProofs DaysProofs InterpProofs AggModel BuildProofs UtilModel UtilModel2 SpecUtil UtilProofs
  CascadeModel PrecipModel TempModel TempProofs SpecTemp RadModel RadProofs SpecRad HumModel HumProofs WindModel StationModel SpecStation StationProofs StationDaily
  PropsStation PropsStation2 PropsStation6 RadBC TempCourse PropsNames PropsReach SpecNeeds.
Import ListNotations.
Open Scope Z_scope.

(** a station with daily data for n consecutive days (by C116 it has the matching hourly frame) *)
Definition loaded (e : env) (st : station) (d0 : Z) (n : nat) (dd : dframe xr) : Prop :=
  consistent e st /\ s_daily st = Some dd /\ n <> O /\ f_index dd = daily_index d0 n.
Definition raised (r : station * option exn) : option exn := snd r.

Lemma loaded_ready e st d0 n dd : loaded e st d0 n dd -> ready st d0 n dd.
Proof. intros (C & D & N & I). exact (proj1 (consistent_ready e st dd d0 n C D N I)). Qed.
Lemma loaded_frame e st d0 n dd : loaded e st d0 n dd -> SpecRad.day_frame dd d0 n.
Proof. intros (_ & _ & N & I). split; assumption. Qed.
Lemma one_of_In m l : one_of m l = true <-> In m l.
Proof.
  unfold one_of. rewrite existsb_exists. split; [intros (x & I & E); apply String.eqb_eq in E; subst; exact I|intro I; exists m; split; [exact I|apply String.eqb_refl]].
Qed.
Lemma has_true e st d0 n dd c : loaded e st d0 n dd -> has dd c = true -> exists l, has_column dd c l.
Proof.
  intros ((_ & _ & C) & D & N & I) H. apply one_of_In in H. destruct (C dd D) as [_ (ds & _ & C2 & C3 & _)].
  destruct (assoc c (f_cols dd)) as [l|] eqn:A.
  - exists l. split; [exact A|]. rewrite C2, map_length. exact (C3 c l (assoc_in _ _ _ A)).
  - exfalso. clear - A H. induction (f_cols dd) as [|[k v] r IH]; [exact H|]. cbn in A, H. destruct (String.eqb_spec k c); [discriminate|]. destruct H; [contradiction|auto].
Qed.
Lemma has_false dd c : has dd c = false -> assoc c (f_cols dd) = None.
Proof.
  intro H. destruct (assoc c (f_cols dd)) as [l|] eqn:A; [|reflexivity]. exfalso. apply not_true_iff_false in H. apply H. apply one_of_In.
  apply in_map_iff. exists (c, l). split; [reflexivity|exact (assoc_in _ _ _ A)].
Qed.
Lemma fcol_false dd c : has dd c = false -> fcol c dd = Err AttributeError.
Proof. intro H. unfold fcol. rewrite (has_false dd c H). reflexivity. Qed.
Lemma put_ok e st d0 n dd name s : loaded e st d0 n dd -> In name hourly_names -> index s = hours_index d0 n -> raised (put_series name s st) = None.
Proof. intros L I X. destruct (put_series_ready st d0 n dd name s (loaded_ready _ _ _ _ _ L) I X) as (st' & P & _). rewrite P. reflexivity. Qed.
Lemma finish_ok e st d0 n dd name s : loaded e st d0 n dd -> In name hourly_names -> index s = hours_index d0 n -> raised (finish name (Ok s) st) = None.
Proof. exact (put_ok e st d0 n dd name s). Qed.
Lemma one_of_false m l : one_of m l = false -> ~ In m l.
Proof. intros H I. apply one_of_In in I. congruence. Qed.

Lemma forallb_map {A B} (f : A -> B) P l : forallb P (map f l) = forallb (fun a => P (f a)) l.
Proof. induction l as [|a l IH]; [reflexivity|]. cbn. rewrite IH. reflexivity. Qed.
Lemma forallb_ext_in {A} (P Q : A -> bool) l : (forall a, In a l -> P a = Q a) -> forallb P l = forallb Q l.
Proof. induction l as [|a l IH]; intro H; [reflexivity|]. cbn. rewrite H, IH by (try (intros; apply H); cbn; auto). reflexivity. Qed.
Lemma mapM_ext {A B} (f g : A -> res B) l : (forall a, In a l -> f a = g a) -> mapM f l = mapM g l.
Proof. induction l as [|a l IH]; intro H; [reflexivity|]. cbn. rewrite H, IH by (try (intros; apply H); cbn; auto). reflexivity. Qed.

(** ** No daily data *)
Theorem C118_no_data e q st : s_daily st = None -> s_disagg st = None -> s_sun st = None ->
  (forall m draw, raised (st_wind e q st m draw) = Some AttributeError) /\
  (forall m keep, raised (st_humidity e q st m keep) = Some AttributeError) /\
  (forall m time night, raised (st_temperature e q st m time night) =
     Some (if one_of m ["sine"; "sine_min_max"; "sine_mean"; "mean_course_min_max"; "mean_course_mean"]%string then AttributeError else ValueError)) /\
  (forall m u shft master draws, raised (st_precipitation e q st m u shft master draws) =
     Some (if one_of m ["equal"; "cascade"; "masterstation"]%string then AttributeError else UnboundLocalError)) /\
  (forall m pot, raised (st_radiation e q st m pot) = Some AttributeError).
Proof.
  intros D H S. repeat split.
  - intros m draw. unfold st_wind, daily_col. rewrite D. reflexivity.
  - intros m keep. unfold st_humidity, daily_frame. rewrite D. reflexivity.
  - intros m time night. unfold st_temperature, daily_frame_temp. rewrite D. cbn [bind finish raised snd]. f_equal. unfold one_of. cbn [existsb].
    destruct (String.eqb m "sine"), (String.eqb m "sine_min_max"), (String.eqb m "sine_mean"); reflexivity.
  - intros m u shft master draws. unfold st_precipitation, one_of, st_cascade, daily_col. rewrite D, H. cbn [existsb].
    destruct (String.eqb m "equal"); [reflexivity|]. destruct (String.eqb m "cascade"); [reflexivity|]. destruct (String.eqb m "masterstation"); reflexivity.
  - intros m pot. unfold st_radiation. rewrite S. unfold calc_sun_times. rewrite D. reflexivity.
Qed.
Print Assumptions C118_no_data.
(** met by every new station *)
Example C118_no_data_met cf mb fc lr pc e lon lat tz : exists st,
  nth_error (w_stations (run cf mb fc lr pc e [NewStation lon lat tz None] empty_world)) 0 = Some st /\ s_daily st = None /\ s_disagg st = None /\ s_sun st = None.
Proof. eexists. split; [reflexivity|]. repeat split. Qed.

(** ** Wind *)
Theorem C118_wind e q st d0 n dd m draw : loaded e st d0 n dd ->
  raised (st_wind e q st m draw) = first_missing (wind_needs dd (q_wind_a q) (q_wind_b q) (q_wind_shift q) m).
Proof.
  intro L. unfold wind_needs. cbn [List.app first_missing]. unfold st_wind, daily_col. rewrite (proj1 (proj2 L)).
  destruct (has dd "wind") eqn:HW; [|rewrite (fcol_false _ _ HW); reflexivity].
  destruct (has_true e st d0 n dd _ L HW) as (w & HC). destruct (column_daily dd d0 n _ _ (loaded_frame _ _ _ _ _ L) HC) as [E LW]. rewrite E. cbn [bind].
  unfold disaggregate_wind. fold (one_of m ["equal"; "cosine"; "random"]%string).
  destruct (one_of m _) eqn:M; cbn [negb]; [|reflexivity]. rewrite (distribute_daily e d0 n w LW (proj1 (proj2 (proj2 L)))). cbn [bind].
  apply one_of_In in M. destruct M as [<-|[<-|[<-|[]]]]; cbn [String.eqb Ascii.eqb Bool.eqb first_missing].
  - apply (put_ok e st d0 n dd); [exact L|cbn; tauto|]. unfold index. rewrite map_map. apply map_id.
  - destruct (q_wind_a q), (q_wind_b q), (q_wind_shift q); cbn [given andb]; try reflexivity.
    edestruct (put_array_ready st d0 n dd "wind") as (st' & P & _); [exact (loaded_ready _ _ _ _ _ L)|cbn; tauto| |rewrite P; reflexivity].
    rewrite !map_length, hours_length. lia.
  - apply (put_ok e st d0 n dd); [exact L|cbn; tauto|]. unfold index. rewrite map_map. cbn [fst].
    rewrite <- (map_map fst fst). rewrite map_fst_combine by (rewrite seq_length; reflexivity). rewrite map_map. apply map_id.
Qed.
Print Assumptions C118_wind.

(** ** Humidity *)
Lemma functional d0 n (s : series xr) : map fst s = hours_index d0 n -> exists f, s = map (fun t => (t, f t)) (hours_index d0 n).
Proof.
  intro E. assert (L : length s = (24 * n)%nat) by (rewrite <- (map_length fst), E; apply grid_length).
  exists (fun t => nth (Z.to_nat ((t - d0 * us_day) / us_hour)) (map snd s) NaN). rewrite <- (combine_parts s) at 1. unfold index, values. rewrite E.
  unfold hours_index, grid. rewrite map_map. rewrite (list_seq (map snd s) NaN) at 1. rewrite map_length, L, combine_maps. apply map_ext. intro i. f_equal. f_equal.
  replace (d0 * us_day + Z.of_nat i * us_hour - d0 * us_day) with (Z.of_nat i * us_hour) by ring. rewrite Z.div_mul by discriminate. lia.
Qed.
Lemma temp_column e st d0 n dd : loaded e st d0 n dd ->
  exists d f, s_disagg st = Some d /\ fcol "temp" d = Ok (map (fun t => (t, f t)) (hours_index d0 n)).
Proof.
  intros (C & DD & N & I). destruct (consistent_ready e st dd d0 n C DD N I) as [(_ & _ & _ & d & E1 & E2 & E3) H].
  destruct (H "temp"%string) as (v & HV & LV); [cbn; tauto|]. unfold hourly_column in HV. rewrite E1 in HV.
  destruct (functional d0 n (combine (f_index d) v)) as (f & F).
  - rewrite map_fst_combine; [exact E2|]. rewrite E2, LV. apply grid_length.
  - exists d, f. split; [exact E1|]. unfold fcol. rewrite HV, F. reflexivity.
Qed.
Lemma mhp_get_entry k (l : list (mhp_key * xr)) : given (mhp_get k l) = entry_for k l.
Proof.
  induction l as [|[[[m h] w] v] l IH]; [reflexivity|]. destruct k as [[m' h'] w']. cbn [mhp_get]. unfold entry_for. cbn [existsb fst]. unfold mhp_eqb at 1.
  destruct ((m =? m') && (h =? h') && Bool.eqb w w'); [reflexivity|]. exact IH.
Qed.
Lemma wet_spec (x : xr) : (x >? n0)%num = wet (Some x).
Proof.
  destruct x; reflexivity.
Qed.
Lemma mapM_key {A B} (f : A -> option B) (x : exn) (g : A -> Z) l :
  match mapM (fun a => match f a with Some v => Ok (g a, v) | None => Err x end) l with
  | Ok out => map fst out = map g l /\ forallb (fun a => given (f a)) l = true
  | Err y => y = x /\ forallb (fun a => given (f a)) l = false
  end.
Proof.
  induction l as [|a l IH]; [split; reflexivity|]. cbn [mapM forallb map]. destruct (f a) as [v|]; cbn [bind given andb]; [|split; reflexivity].
  destruct (mapM _ l) as [out|y]; cbn [bind]; destruct IH as [E1 E2]; (split; [|exact E2]); [cbn [map fst]; rewrite E1; reflexivity|exact E1].
Qed.
Lemma forallb_hours (P : Z -> bool) d0 n :
  forallb P (hours_index d0 n) = forallb (fun i => forallb (fun h => P ((d0 + Z.of_nat i) * us_day + Z.of_nat h * us_hour)) (seq 0 24)) (seq 0 n).
Proof.
  unfold hours_index. rewrite hours_flat. apply eq_true_iff_eq. rewrite !forallb_forall. split.
  - intros H i Hi. apply forallb_forall. intros h Hh. apply H. apply in_seq in Hi, Hh. rewrite <- hours_flat. apply grid_In. exists (i * 24 + h)%nat. split; [lia|]. unfold us_day, us_hour. lia.
  - intros H t Ht. rewrite <- hours_flat in Ht. apply grid_In in Ht as (k & Lk & ->). specialize (H (k / 24)%nat).
    rewrite forallb_forall in H. pose proof (Nat.mod_upper_bound k 24). pose proof (Nat.div_mod k 24).
    replace (d0 * us_day + Z.of_nat k * us_hour) with ((d0 + Z.of_nat (k / 24)) * us_day + Z.of_nat (k mod 24) * us_hour).
    + apply H; apply in_seq; lia.
    + unfold us_day, us_hour. lia.
Qed.

Lemma hum_tail e st d0 n dd (keep : bool) (G : Z -> xr) : loaded e st d0 n dd ->
  raised (finish "hum" (let* h := (if keep then preserve_mean e dd (map (fun t => (t, G t)) (hours_index d0 n)) else Ok (map (fun t => (t, G t)) (hours_index d0 n))) in
                        Ok (map (fun p => (fst p, clip1 n0 (n_ofZ 100) (snd p))) h)) st)
  = first_missing (if keep then [(has dd "hum", AttributeError)] else []).
Proof.
  intro L. destruct keep; cbn [first_missing].
  - destruct (has dd "hum") eqn:H; [|unfold preserve_mean; rewrite (fcol_false _ _ H); reflexivity].
    destruct (has_true e st d0 n dd _ L H) as (l & HC). rewrite (preserve_ok e dd d0 n l G (loaded_frame _ _ _ _ _ L) HC). cbn [bind].
    apply (finish_ok e st d0 n dd); [exact L|cbn; tauto|]. unfold index. rewrite !map_map. apply map_id.
  - cbn [bind]. apply (finish_ok e st d0 n dd); [exact L|cbn; tauto|]. unfold index. rewrite !map_map. apply map_id.
Qed.
Lemma first_missing_app a b : first_missing (a ++ b) = match first_missing a with Some x => Some x | None => first_missing b end.
Proof. induction a as [|[ok x] a IH]; [reflexivity|]. cbn. destruct ok; [exact IH|reflexivity]. Qed.

Lemma classes_spec d0 n dd p l : has_column dd "precip" p -> length p = n ->
  classes_known dd d0 n l = forallb (fun q => given (mhp_get (month_of (fst q), hour_of (fst q), (snd q >? n0)%num) l)) (map (fun t => (t, at_day d0 p NaN t)) (hours_index d0 n)).
Proof.
  intros [A _] LP. rewrite forallb_map. cbn [fst snd]. rewrite (forallb_hours (fun t => given (mhp_get (month_of t, hour_of t, (at_day d0 p NaN t >? n0)%num) l))).
  unfold classes_known. rewrite A. apply forallb_ext_in. intros i Hi. apply in_seq in Hi. apply forallb_ext_in. intros h Hh. apply in_seq in Hh.
  fold (stamp (d0 + Z.of_nat i) h). rewrite mhp_get_entry, stamp_month, stamp_hour, at_day_stamp, wet_spec by lia.
  rewrite (nth_error_nth' p i NaN) by lia. reflexivity.
Qed.
Theorem C118_humidity e q st d0 n dd m keep : loaded e st d0 n dd ->
  raised (st_humidity e q st m keep) = first_missing (hum_needs dd d0 n (q_a0 q) (q_a1 q) (q_kr q) (q_mhp q) m keep).
Proof.
  intro L. pose proof (loaded_frame _ _ _ _ _ L) as F. destruct (temp_column e st d0 n dd L) as (d & f & ED & ET).
  unfold st_humidity, daily_frame. rewrite (proj1 (proj2 L)), ED. cbn [bind]. rewrite ET. cbn [bind]. unfold disaggregate_humidity, disaggregate_humidity_gen, hum_needs.
  fold (one_of m ["equal"; "minimal"; "dewpoint_regression"; "min_max"; "linear_dewpoint_variation"; "month_hour_precip_mean"]%string). cbn [List.app first_missing].
  destruct (one_of m _) eqn:M; cbn [negb]; [|reflexivity]. rewrite first_missing_app.
  apply one_of_In in M. destruct M as [<-|[<-|[<-|[<-|[<-|[<-|[]]]]]]]; cbn [String.eqb Ascii.eqb Bool.eqb first_missing].
  - destruct (has dd "hum") eqn:H; [|unfold raw_humidity; cbn [String.eqb Ascii.eqb Bool.eqb]; rewrite (fcol_false _ _ H); reflexivity].
    destruct (has_true e st d0 n dd _ L H) as (l & HC). rewrite (raw_equal e dd d0 n l _ _ _ _ _ F HC). cbn [bind]. rewrite hum_tail by exact L. rewrite H. reflexivity.
  - destruct (has dd "tmin") eqn:H; [|unfold raw_humidity; cbn [String.eqb Ascii.eqb Bool.eqb]; rewrite (fcol_false _ _ H); reflexivity].
    destruct (has_true e st d0 n dd _ L H) as (l & HC). rewrite (raw_minimal e dd d0 n l _ _ _ _ _ F HC). cbn [bind]. rewrite hum_tail by exact L. reflexivity.
  - destruct (q_a0 q) as [a0|], (q_a1 q) as [a1|]; cbn [given andb first_missing]; try reflexivity.
    destruct (has dd "tmin") eqn:H; [|unfold raw_humidity; cbn [String.eqb Ascii.eqb Bool.eqb orb]; rewrite (fcol_false _ _ H); reflexivity].
    destruct (has_true e st d0 n dd _ L H) as (l & HC). rewrite (raw_regression e dd d0 n l _ _ _ _ _ F HC). cbn [bind]. rewrite hum_tail by exact L. reflexivity.
  - destruct (has dd "hum_min") eqn:H1; [|unfold raw_humidity; cbn [String.eqb Ascii.eqb Bool.eqb orb]; rewrite (has_false _ _ H1); reflexivity].
    destruct (has dd "hum_max") eqn:H2; [|unfold raw_humidity; cbn [String.eqb Ascii.eqb Bool.eqb orb]; rewrite (has_false _ _ H2); destruct (assoc "hum_min" (f_cols dd)); reflexivity].
    cbn [andb first_missing]. destruct (has_true e st d0 n dd _ L H1) as (l1 & C1). destruct (has_true e st d0 n dd _ L H2) as (l2 & C2).
    destruct (column_daily dd d0 n _ _ F C1) as [E1 L1]. destruct (column_daily dd d0 n _ _ F C2) as [E2 L2]. pose proof (proj1 F) as NE.
    destruct (has dd "tmin") eqn:H3.
    2:{ unfold raw_humidity. cbn [String.eqb Ascii.eqb Bool.eqb orb andb]. rewrite (proj1 C1), (proj1 C2), E1, E2. cbn [bind].
        rewrite (distribute_daily e d0 n l1 L1 NE), (distribute_daily e d0 n l2 L2 NE). cbn [bind]. rewrite (fcol_false _ _ H3). reflexivity. }
    destruct (has_true e st d0 n dd _ L H3) as (l3 & C3). destruct (column_daily dd d0 n _ _ F C3) as [E3 L3].
    destruct (has dd "tmax") eqn:H4.
    2:{ unfold raw_humidity. cbn [String.eqb Ascii.eqb Bool.eqb orb andb]. rewrite (proj1 C1), (proj1 C2), E1, E2, E3. cbn [bind].
        rewrite (distribute_daily e d0 n l1 L1 NE), (distribute_daily e d0 n l2 L2 NE), (distribute_daily e d0 n l3 L3 NE). cbn [bind]. rewrite (fcol_false _ _ H4). reflexivity. }
    destruct (has_true e st d0 n dd _ L H4) as (l4 & C4). cbn [andb first_missing].
    rewrite (raw_min_max e dd d0 n l1 l2 l3 l4 _ _ _ _ _ F C1 C2 C3 C4). cbn [bind]. rewrite hum_tail by exact L. reflexivity.
  - destruct (q_a0 q) as [a0|], (q_a1 q) as [a1|]; cbn [given andb first_missing]; try reflexivity.
    destruct (has dd "tmin") eqn:H; [|unfold raw_humidity; cbn [String.eqb Ascii.eqb Bool.eqb orb]; rewrite (fcol_false _ _ H); reflexivity].
    destruct (has_true e st d0 n dd _ L H) as (l & HC). destruct (column_daily dd d0 n _ _ F HC) as [E1 L1]. pose proof (proj1 F) as NE.
    destruct (q_kr q) as [k|]; [destruct ((k =? 6) || (k =? 12)) eqn:K|]; cbn [first_missing].
    + assert (K' : k = 6 \/ k = 12) by (apply orb_true_iff in K as [K|K]; apply Z.eqb_eq in K; auto).
      rewrite (raw_linear e dd d0 n l _ _ _ _ _ F HC K'). cbn [bind]. rewrite hum_tail by exact L. reflexivity.
    + unfold raw_humidity. cbn [String.eqb Ascii.eqb Bool.eqb orb]. rewrite E1. cbn [bind]. unfold dewpoint_humidity. rewrite <- (daily_map (fun x => (a0 + a1 * x)%num)).
      rewrite (distribute_daily e d0 n) by (rewrite ?map_length; assumption). cbn [bind]. rewrite K. reflexivity.
    + unfold raw_humidity. cbn [String.eqb Ascii.eqb Bool.eqb orb]. rewrite E1. cbn [bind]. unfold dewpoint_humidity. rewrite <- (daily_map (fun x => (a0 + a1 * x)%num)).
      rewrite (distribute_daily e d0 n) by (rewrite ?map_length; assumption). reflexivity.
  - destruct (q_mhp q) as [tbl|]; cbn [given first_missing]; [|reflexivity].
    destruct (has dd "precip") eqn:H; [|unfold raw_humidity; cbn [String.eqb Ascii.eqb Bool.eqb orb]; rewrite (fcol_false _ _ H); reflexivity].
    destruct (has_true e st d0 n dd _ L H) as (l & HC). destruct (column_daily dd d0 n _ _ F HC) as [E1 L1]. pose proof (proj1 F) as NE.
    rewrite (classes_spec d0 n dd l tbl HC L1). unfold raw_humidity. cbn [String.eqb Ascii.eqb Bool.eqb orb]. rewrite E1. cbn [bind]. rewrite (distribute_daily e d0 n l L1 NE). cbn [bind].
    set (p := map (fun t => (t, at_day d0 l NaN t)) (hours_index d0 n)).
    pose proof (mapM_key (fun q => mhp_get (month_of (fst q), hour_of (fst q), (snd q >? n0)%num) tbl) KeyError fst p) as K.
    destruct (mapM _ p) as [out|y]; destruct K as [K1 ->]; cbn [bind first_missing]; [|rewrite K1; reflexivity].
    destruct (functional d0 n out) as (G & ->).
    { rewrite K1. unfold p. rewrite map_map. apply map_id. }
    rewrite hum_tail by exact L. reflexivity.
Qed.
Print Assumptions C118_humidity.

(** ** Temperature *)
Lemma mapM_key1 {A B} (f : A -> option B) (x : exn) l :
  match mapM (fun a => match f a with Some v => Ok v | None => Err x end) l with
  | Ok out => length out = length l /\ forallb (fun a => given (f a)) l = true
  | Err y => y = x /\ forallb (fun a => given (f a)) l = false
  end.
Proof.
  induction l as [|a l IH]; [split; reflexivity|]. cbn [mapM forallb]. destruct (f a) as [v|]; cbn [bind given andb]; [|split; reflexivity].
  destruct (mapM _ l) as [out|y]; cbn [bind]; destruct IH as [E1 E2]; (split; [|exact E2]); [cbn [length]; rewrite E1; reflexivity|exact E1].
Qed.
Definition course_opt (c : course xr) (t : Z) : option xr := match lookup (month_of t) c with Some col => lookup (hour_of t) col | None => None end.
Lemma course_at_opt c t : course_at c t = match course_opt c t with Some v => Ok v | None => Err KeyError end.
Proof. unfold course_at, course_opt. destruct (lookup (month_of t) c); reflexivity. Qed.
Lemma mapM_course c d0 n :
  match mapM (course_at c) (hours_index d0 n) with
  | Ok out => length out = (24 * n)%nat /\ course_known d0 n c = true
  | Err y => y = KeyError /\ course_known d0 n c = false
  end.
Proof.
  assert (K : course_known d0 n c = forallb (fun t => given (course_opt c t)) (hours_index d0 n)).
  { rewrite forallb_hours. unfold course_known. apply forallb_ext_in. intros i Hi. apply in_seq in Hi.
    assert (S : forall h, (h < 24)%nat -> course_opt c ((d0 + Z.of_nat i) * us_day + Z.of_nat h * us_hour)
                = match lookup (month_of_day (d0 + Z.of_nat i)) c with Some col => lookup (Z.of_nat h) col | None => None end).
    { intros h Hh. fold (stamp (d0 + Z.of_nat i) h). unfold course_opt. rewrite stamp_month, stamp_hour by exact Hh. reflexivity. }
    change (entry_of (month_of_day (d0 + Z.of_nat i)) c) with (lookup (month_of_day (d0 + Z.of_nat i)) c).
    destruct (lookup (month_of_day (d0 + Z.of_nat i)) c) as [col|].
    - apply forallb_ext_in. intros h Hh. apply in_seq in Hh. rewrite S by lia. reflexivity.
    - symmetry. apply not_true_iff_false. intro X. rewrite forallb_forall in X. specialize (X O). rewrite S in X by lia. cbn [given] in X. assert (Y : false = true) by (apply X, in_seq; lia). discriminate Y. }
  rewrite K. pose proof (mapM_key1 (course_opt c) KeyError (hours_index d0 n)) as M. rewrite <- (mapM_ext (course_at c)) in M by (intros t _; apply course_at_opt).
  unfold hours_index at 2 in M. rewrite grid_length in M. exact M.
Qed.
Lemma zero_mean_known d0 n c : course_known d0 n (zero_mean c) = course_known d0 n c.
Proof.
  unfold course_known. apply forallb_ext_in. intros i _.
  assert (E : forall m, entry_of m (zero_mean c) = match entry_of m c with Some col => Some (map (fun q => (fst q, (snd q - nanmean (map snd col))%num)) col) | None => None end).
  { intro m. induction c as [|[k col] c IH]; [reflexivity|]. cbn. destruct (k =? m); [reflexivity|exact IH]. }
  rewrite E. destruct (entry_of _ c) as [col|]; [|reflexivity]. apply forallb_ext_in. intros h _. generalize (nanmean (map snd col)). intro mu.
  induction col as [|[k v] col IH]; [reflexivity|]. cbn. destruct (k =? Z.of_nat h); [reflexivity|exact IH].
Qed.
Lemma rows2 (nv : list xr) (a b : series xr) (F : xr -> xr -> xr -> xr) : length nv = length a -> length b = length a ->
  map fst (map (fun p => match p with (v, (t, lo), (_, hi)) => (t, F v lo hi) end) (combine (combine nv a) b)) = map fst a.
Proof.
  revert nv b. induction a as [|[t lo] a IH]; intros [|v nv] [|[t' hi] b] L1 L2; try discriminate; [reflexivity|]. cbn. f_equal. apply IH; cbn in *; lia.
Qed.
Lemma rows3 (nv : list xr) (a b c : series xr) (F : xr -> xr -> xr -> xr -> xr) : length nv = length a -> length b = length a -> length c = length a ->
  map fst (map (fun p => match p with (v, (t, lo), (_, hi), (_, m)) => (t, F v lo hi m) end) (combine (combine (combine nv a) b) c)) = map fst a.
Proof.
  revert nv b c. induction a as [|[t lo] a IH]; intros [|v nv] [|[t' hi] b] [|[t'' m] c] L1 L2 L3; try discriminate; [reflexivity|]. cbn. f_equal. apply IH; cbn in *; lia.
Qed.
Lemma reindex_labels k (s : series xr) idx : map fst (reindex_ffill_limit k s idx) = idx.
Proof. unfold reindex_ffill_limit. rewrite map_map. apply map_id. Qed.
Lemma reindex_length k (s : series xr) idx : length (reindex_ffill_limit k s idx) = length idx.
Proof. unfold reindex_ffill_limit. apply map_length. Qed.

(** sun times for the days, with at least three hours of daylight *)
Definition sun_fits (st : station) (d0 : Z) (n : nat) : Prop :=
  forall sun, s_sun st = Some sun -> exists rise noon, length rise = n /\ sun_days sun d0 rise noon.
Definition numbers (l : list (Z * xr)) : Prop := forall m x, entry_of m l = Some x -> exists r, x = Fin r.

Lemma sine_core e q st d0 n dd m time night ml xl mins maxs : loaded e st d0 n dd -> sun_fits st d0 n ->
  In m ["sine"; "sine_min_max"; "sine_mean"]%string ->
  locations (daily_index d0 n) time (q_delta q) (s_sun st) = Ok (ml, xl) -> mapM to_int ml = Ok mins -> mapM to_int xl = Ok maxs ->
  length mins = n -> length maxs = n ->
  raised (st_temperature e q st m time night) =
  first_missing [(has dd "tmin" && has dd "tmax" && has dd "temp", AttributeError); (given (s_sun st), AttributeError)].
Proof.
  intros L SF M HL H1 H2 L1 L2. pose proof (loaded_frame _ _ _ _ _ L) as F. pose proof F as [NE FI].
  assert (HM : (m = "sine_min_max" \/ m = "sine_mean" \/ m = "sine")%string) by (destruct M as [<-|[<-|[<-|[]]]]; auto).
  unfold st_temperature, daily_frame_temp. rewrite (proj1 (proj2 L)). cbn [bind].
  assert (U : forall sun, locations (daily_index d0 n) time (q_delta q) sun = Ok (ml, xl) ->
    disaggregate_temperature e dd m time night (q_delta q) (q_tcourse q) sun
    = (let* tmin := fcol "tmin" dd in let* tmax := fcol "tmax" dd in let* temp := fcol "temp" dd in
       match sun with
       | None => Err AttributeError
       | Some st => let* _ := polar_branch e st (hours_index d0 n) in
           Ok (map (fun t => (t, match last_le t (loc_rows (daily_index d0 n) mins maxs tmin tmax temp) None with
                                  | Some r => sine_hour (if String.eqb m "sine_mean" then SineMean else SineMinMax) night r (hour_of t)
                                  | None => NaN end)) (hours_index d0 n))
       end)).
  { intros sun HL'. unfold disaggregate_temperature.
    replace (String.eqb m "sine_min_max" || String.eqb m "sine_mean" || String.eqb m "sine") with true by (destruct HM as [-> |[-> | ->]]; reflexivity).
    cbn [negb orb]. rewrite (day_frame_hours e dd d0 n F). cbn [bind]. rewrite FI, HL'. cbn [bind fst snd]. rewrite H1. cbn [bind]. rewrite H2. cbn [bind].
    destruct (fcol "tmin" dd) as [a|]; cbn [bind]; [|reflexivity]. destruct (fcol "tmax" dd) as [b|]; cbn [bind]; [|reflexivity]. destruct (fcol "temp" dd) as [c|]; cbn [bind]; [|reflexivity].
    rewrite daily_has_dup. unfold daily_index at 1. rewrite grid_increasing by (unfold us_day; lia). reflexivity. }
  rewrite (U _ HL).
  destruct (has dd "tmin") eqn:C1; [|rewrite (fcol_false _ _ C1); reflexivity]. destruct (has_true e st d0 n dd _ L C1) as (a & A). destruct (column_daily _ _ _ _ _ F A) as [-> _]. cbn [bind andb].
  destruct (has dd "tmax") eqn:C2; [|rewrite (fcol_false _ _ C2); reflexivity]. destruct (has_true e st d0 n dd _ L C2) as (b & B). destruct (column_daily _ _ _ _ _ F B) as [-> _]. cbn [bind andb].
  destruct (has dd "temp") eqn:C3; [|rewrite (fcol_false _ _ C3); reflexivity]. destruct (has_true e st d0 n dd _ L C3) as (c & C). destruct (column_daily _ _ _ _ _ F C) as [-> _]. cbn [bind first_missing].
  destruct (s_sun st) as [sun|] eqn:SN; cbn [given]; [|reflexivity]. destruct (SF sun SN) as (rise & noon & _ & SD).
  rewrite no_polar by exact (proj2 (proj2 (proj2 (proj2 SD)))). cbn [bind]. apply (finish_ok e st d0 n dd); [exact L|cbn; tauto|]. unfold index. rewrite map_map. apply map_id.
Qed.
(** the shifts that matter *)
Definition all_shifts (l : list (Z * xr)) : list (Z * xr) :=
  map (fun k => (Z.of_nat k, match entry_of (Z.of_nat k) l with Some (Fin r) => Fin r | _ => Fin 0 end)) (seq 1 12).
Lemma all_shifts_at l m : 1 <= m <= 12 -> entry_of m (all_shifts l) = Some (match entry_of m l with Some (Fin r) => Fin r | _ => Fin 0 end).
Proof.
  intro H. assert (C : m = 1 \/ m = 2 \/ m = 3 \/ m = 4 \/ m = 5 \/ m = 6 \/ m = 7 \/ m = 8 \/ m = 9 \/ m = 10 \/ m = 11 \/ m = 12) by lia.
  unfold all_shifts. decompose [or] C; subst; reflexivity.
Qed.
Lemma locations_shift d0 n l sun : numbers l -> months_known d0 n l = true ->
  locations (daily_index d0 n) "sun_loc_shift" (Some l) sun = locations (daily_index d0 n) "sun_loc_shift" (Some (all_shifts l)) sun.
Proof.
  intros N K. unfold locations. cbn [String.eqb Ascii.eqb Bool.eqb]. destruct sun as [st|]; [|reflexivity].
  rewrite (mapM_ext _ (fun t => match lookup (month_of t) (all_shifts l) with Some v => Ok v | None => Err KeyError end)); [reflexivity|].
  intros t Ht. apply grid_In in Ht as (i & Hi & ->). unfold months_known in K. rewrite forallb_forall in K. specialize (K i). 
  replace (d0 * us_day + Z.of_nat i * us_day) with ((d0 + Z.of_nat i) * us_day) by ring. unfold month_of. rewrite day_start_date.
  change (lookup (month_of_day (d0 + Z.of_nat i)) (all_shifts l)) with (entry_of (month_of_day (d0 + Z.of_nat i)) (all_shifts l)).
  rewrite all_shifts_at by apply month_range. change (lookup (month_of_day (d0 + Z.of_nat i)) l) with (entry_of (month_of_day (d0 + Z.of_nat i)) l).
  destruct (entry_of (month_of_day (d0 + Z.of_nat i)) l) as [x|] eqn:E.
  - destruct (N _ _ E) as [r ->]. reflexivity.
  - exfalso. assert (X : given (@None xr) = true) by (apply K, in_seq; lia). discriminate X.
Qed.
Lemma sun_given e q st d0 n dd m time night delta : loaded e st d0 n dd -> sun_fits st d0 n -> In m ["sine"; "sine_min_max"; "sine_mean"]%string ->
  forall sun, s_sun st = Some sun -> forall md, SpecTemp.usable time md delta ->
  locations (daily_index d0 n) time (q_delta q) (Some sun) = locations (daily_index d0 n) time md (Some sun) ->
  raised (st_temperature e q st m time night) =
  first_missing [(has dd "tmin" && has dd "tmax" && has dd "temp", AttributeError); (given (s_sun st), AttributeError)].
Proof.
  intros L SF M sun SN md U EL. destruct (SF sun SN) as (rise & noon & LR & SD). destruct (locations_spec sun d0 rise noon md delta time SD U) as (mins & maxs & (ml & xl & R1 & R2 & R3) & L1 & L2 & _).
  rewrite LR in *. apply (sine_core e q st d0 n dd m time night ml xl mins maxs); try assumption. rewrite SN, EL. exact R1.
Qed.
Theorem C118_temperature e q st d0 n dd m time night : loaded e st d0 n dd -> sun_fits st d0 n -> (forall l, q_delta q = Some l -> numbers l) ->
  raised (st_temperature e q st m time night) = first_missing (temp_needs dd d0 n (given (s_sun st)) (q_delta q) (q_tcourse q) m time).
Proof.
  intros L SF SH. pose proof (loaded_frame _ _ _ _ _ L) as F. pose proof F as [NE FI]. unfold temp_needs. cbn [List.app first_missing].
  destruct (one_of m ["sine"; "sine_min_max"; "sine_mean"]%string) eqn:M.
  - apply one_of_In in M. replace (one_of m _) with true by (destruct M as [<-|[<-|[<-|[]]]]; reflexivity). rewrite first_missing_app.
    destruct (String.eqb_spec time "fix") as [->|N1].
    { cbn [first_missing]. eapply (sine_core e q st d0 n dd m "fix" night); try eassumption.
      - reflexivity.
      - rewrite mapM_map. apply (mapM_Ok _ (fun _ => 7)). intros t _. cbn [to_int n_ofZ Num_xr]. rewrite Rtrunc_IZR. reflexivity.
      - rewrite mapM_map. apply (mapM_Ok _ (fun _ => 14)). intros t _. cbn [to_int n_ofZ Num_xr]. rewrite Rtrunc_IZR. reflexivity.
      - rewrite map_length. apply grid_length.
      - rewrite map_length. apply grid_length. }
    assert (BAD : forall x, (forall sun, s_sun st = sun -> (let* locs := locations (daily_index d0 n) time (q_delta q) sun in let* mins := mapM to_int (fst locs) in Ok tt) = Err x) ->
      raised (st_temperature e q st m time night) = Some x).
    { intros x HX. specialize (HX _ eq_refl). unfold st_temperature, daily_frame_temp. rewrite (proj1 (proj2 L)). cbn [bind]. unfold disaggregate_temperature.
      replace (String.eqb m "sine_min_max" || String.eqb m "sine_mean" || String.eqb m "sine") with true by (destruct M as [<-|[<-|[<-|[]]]]; reflexivity).
      cbn [negb orb]. rewrite (day_frame_hours e dd d0 n F). cbn [bind]. rewrite FI. destruct (locations _ _ _ _) as [locs|y]; cbn [bind] in *; [|injection HX as ->; reflexivity].
      destruct (mapM to_int (fst locs)) as [mins|y]; cbn [bind] in *; [discriminate|injection HX as ->; reflexivity]. }
    destruct (String.eqb_spec time "sun_loc") as [->|N2].
    { destruct (s_sun st) as [sun|] eqn:SN; cbn [given first_missing].
      - rewrite (sun_given e q st d0 n dd m "sun_loc" night (fun _ => 0%R) L SF M sun SN None); [rewrite SN; reflexivity|right; left; reflexivity|reflexivity].
      - apply BAD. intros s ES. rewrite <- ES, ?SN. reflexivity. }
    destruct (String.eqb_spec time "sun_loc_shift") as [->|N3].
    { destruct (s_sun st) as [sun|] eqn:SN; cbn [given first_missing].
      - destruct (q_delta q) as [l|] eqn:QD; cbn [given first_missing].
        + destruct (months_known d0 n l) eqn:MK; cbn [first_missing].
          * rewrite (sun_given e q st d0 n dd m "sun_loc_shift" night (fun k => match entry_of k l with Some (Fin r) => r | _ => 0%R end) L SF M sun SN (Some (all_shifts l))).
            { rewrite SN. reflexivity. }
            { right. right. split; [reflexivity|]. exists (all_shifts l). split; [reflexivity|]. intros k Hk. rewrite all_shifts_at by exact Hk. destruct (entry_of k l) as [[r| | |]|]; reflexivity. }
            { rewrite QD. apply locations_shift; [apply SH; reflexivity|exact MK]. }
          * apply BAD. intros s ES. rewrite <- ES, ?SN, ?QD. unfold locations. cbn [String.eqb Ascii.eqb Bool.eqb].
            pose proof (mapM_key1 (fun t => lookup (month_of t) l) KeyError (daily_index d0 n)) as K. destruct (mapM _ (daily_index d0 n)) as [out|y]; destruct K as [K1 K2]; [|rewrite K1; reflexivity].
            exfalso. unfold months_known in MK. unfold daily_index, grid in K2. rewrite forallb_map in K2. rewrite (forallb_ext_in _ (fun i => given (entry_of (month_of_day (d0 + Z.of_nat i)) l))) in K2; [congruence|].
            intros i _. replace (d0 * us_day + Z.of_nat i * us_day) with ((d0 + Z.of_nat i) * us_day) by ring. unfold month_of. rewrite day_start_date. reflexivity.
        + apply BAD. intros s ES. rewrite <- ES, ?SN, ?QD. reflexivity.
      - apply BAD. intros s ES. rewrite <- ES, ?SN. reflexivity. }
    cbn [first_missing]. apply BAD. intros sun _. unfold locations. destruct (String.eqb_spec time "fix"); [contradiction|]. destruct (String.eqb_spec time "sun_loc"); [contradiction|].
    destruct (String.eqb_spec time "sun_loc_shift"); [contradiction|]. cbn [bind fst]. destruct n; [contradiction|]. reflexivity.
  - destruct (one_of m ["sine"; "sine_min_max"; "sine_mean"; "mean_course_min_max"; "mean_course_mean"]%string) eqn:M2.
    2:{ unfold st_temperature, daily_frame_temp. rewrite (proj1 (proj2 L)). cbn [bind]. unfold disaggregate_temperature. unfold one_of in M2. cbn [existsb] in M2.
        destruct (String.eqb m "sine"); [discriminate|]. destruct (String.eqb m "sine_min_max"); [discriminate|]. destruct (String.eqb m "sine_mean"); [discriminate|].
        destruct (String.eqb m "mean_course_min_max"); [discriminate|]. destruct (String.eqb m "mean_course_mean"); [discriminate|]. reflexivity. }
    apply one_of_In in M2. unfold st_temperature, daily_frame_temp. rewrite (proj1 (proj2 L)). cbn [bind].
    destruct M2 as [<-|[<-|[<-|[<-|[<-|[]]]]]]; try discriminate M; unfold disaggregate_temperature; cbn [String.eqb Ascii.eqb Bool.eqb orb negb];
      rewrite (day_frame_hours e dd d0 n F); cbn [bind]; rewrite FI, daily_has_dup; unfold daily_index at 1; rewrite grid_increasing by (unfold us_day; lia); cbn [orb negb].
    + destruct (q_tcourse q) as [c|]; cbn [given first_missing]; [|reflexivity]. pose proof (mapM_course c d0 n) as K.
      destruct (mapM _ _) as [nv|y]; destruct K as [K1 ->]; cbn [bind first_missing]; [|rewrite K1; reflexivity].
      destruct (has dd "tmin") eqn:C1; [|rewrite (fcol_false _ _ C1); reflexivity]. destruct (has_true e st d0 n dd _ L C1) as (a & A). destruct (column_daily _ _ _ _ _ F A) as [-> _]. cbn [bind andb].
      destruct (has dd "tmax") eqn:C2; [|rewrite (fcol_false _ _ C2); reflexivity]. destruct (has_true e st d0 n dd _ L C2) as (b & B). destruct (column_daily _ _ _ _ _ F B) as [-> _]. cbn [bind first_missing].
      apply (finish_ok e st d0 n dd); [exact L|cbn; tauto|]. unfold index. rewrite rows2; [apply reindex_labels| |]; rewrite !reindex_length, ?hours_length; [lia|reflexivity].
    + destruct (has dd "tmin") eqn:C1; [|rewrite (fcol_false _ "tmin" C1); destruct (fcol "tmax" dd) as [?|y] eqn:EX; cbn [bind]; [reflexivity|unfold fcol in EX; destruct (assoc _ _); [discriminate|injection EX as <-; reflexivity]]].
      destruct (has_true e st d0 n dd _ L C1) as (a & A). destruct (column_daily _ _ _ _ _ F A) as [-> _]. cbn [bind andb].
      destruct (has dd "tmax") eqn:C2; [|rewrite (fcol_false _ _ C2); reflexivity]. destruct (has_true e st d0 n dd _ L C2) as (b & B). destruct (column_daily _ _ _ _ _ F B) as [-> _]. cbn [bind first_missing].
      destruct (q_tcourse q) as [c|]; cbn [given first_missing]; [|reflexivity]. pose proof (mapM_course (zero_mean c) d0 n) as K. rewrite zero_mean_known in K.
      destruct (mapM _ _) as [nv|y]; destruct K as [K1 ->]; cbn [bind first_missing]; [|rewrite K1; reflexivity].
      destruct (has dd "temp") eqn:C3; [|rewrite (fcol_false _ _ C3); reflexivity]. destruct (has_true e st d0 n dd _ L C3) as (t & T). destruct (column_daily _ _ _ _ _ F T) as [-> _]. cbn [bind].
      apply (finish_ok e st d0 n dd); [exact L|cbn; tauto|]. unfold index. rewrite (rows3 nv _ _ _ (fun v lo hi m => (m + (hi - lo) * v)%num)); [apply reindex_labels| | |]; rewrite !reindex_length, ?hours_length; [lia|reflexivity|reflexivity].
Qed.
Print Assumptions C118_temperature.

(** ** Precipitation *)
Theorem C118_precipitation e q st d0 n dd m u shft master draws : loaded e st d0 n dd ->
  (m = "cascade"%string -> forall ms cs, q_months q = Some ms -> q_casc q = Some cs -> combine ms cs <> []) ->
  (forall x, first_missing (prec_needs dd (given (q_months q)) (given (q_casc q)) m) = Some x ->
     raised (st_precipitation e q st m u shft master draws) = Some x) /\
  (m = "equal"%string -> raised (st_precipitation e q st m u shft master draws) = first_missing (prec_needs dd (given (q_months q)) (given (q_casc q)) m)) /\
  (m = "masterstation"%string -> has dd "precip" = true -> master = None ->
     raised (st_precipitation e q st m u shft master draws) = Some (if has_iteritems e then TypeError else AttributeError)).
Proof.
  intros L CA. pose proof (loaded_frame _ _ _ _ _ L) as F. pose proof (loaded_ready _ _ _ _ _ L) as RD. split; [|split].
  - unfold prec_needs, st_precipitation, one_of. cbn [List.app first_missing existsb]. destruct (String.eqb_spec m "equal") as [->|N1].
    { cbn [String.eqb Ascii.eqb Bool.eqb orb List.app first_missing]. destruct (has dd "precip") eqn:H; [discriminate|]. intros x X. injection X as <-.
      unfold daily_col. rewrite (proj1 (proj2 L)), (fcol_false _ _ H). reflexivity. }
    destruct (String.eqb_spec m "cascade") as [->|N2].
    { cbn [orb List.app first_missing]. unfold st_cascade. destruct (temp_column e st d0 n dd L) as (d & f & ED & _). rewrite ED.
      destruct (q_months q) as [ms|] eqn:Q1, (q_casc q) as [cs|] eqn:Q2; cbn [given andb first_missing]; try (intros x X; injection X as <-; reflexivity).
      destruct (has dd "precip") eqn:H; [discriminate|]. intros x X. injection X as <-. specialize (CA eq_refl ms cs eq_refl eq_refl).
      destruct (combine ms cs) as [|p r]; [contradiction|]. unfold daily_col. rewrite (proj1 (proj2 L)), (fcol_false _ _ H). reflexivity. }
    destruct (String.eqb_spec m "masterstation") as [->|N3]; cbn [orb List.app first_missing].
    + destruct (has dd "precip") eqn:H; [discriminate|]. intros x X. injection X as <-. unfold daily_col. rewrite (proj1 (proj2 L)), (fcol_false _ _ H). reflexivity.
    + intros x X. injection X as <-. reflexivity.
  - intros ->. unfold prec_needs. cbn [one_of existsb String.eqb Ascii.eqb Bool.eqb orb List.app first_missing]. destruct (has dd "precip") eqn:H.
    + destruct (has_true e st d0 n dd _ L H) as (l & HC). destruct (C85_precipitation_equal e q st d0 n dd l u shft master draws RD HC) as (st' & E & _). rewrite E. reflexivity.
    + unfold st_precipitation, daily_col. rewrite (proj1 (proj2 L)), (fcol_false _ _ H). reflexivity.
  - intros -> H ->. destruct (has_true e st d0 n dd _ L H) as (l & HC). destruct (ready_column _ _ _ _ _ _ RD HC) as [DC _].
    unfold st_precipitation. cbn [String.eqb Ascii.eqb Bool.eqb]. rewrite DC. reflexivity.
Qed.
Print Assumptions C118_precipitation.

(** ** Radiation *)
Definition located_at (st : station) : bool := given (s_lon st) && given (s_lat st) && given (s_tz st).
Lemma pot_labels idx lon lat tz a b c : map fst (potential_radiation idx lon lat tz a b c) = idx.
Proof. unfold potential_radiation, potential_split. rewrite !map_map. apply map_id. Qed.
Lemma rad_after e q st d0 n dd m sun : loaded e st d0 n dd -> s_sun st = Some sun -> map fst sun = daily_index d0 n ->
  full_table (g_angstroem (q_glob q)) -> full_table (g_bristcamp (q_glob q)) ->
  raised (st_radiation e q st m None) = first_missing (rad_needs dd d0 n true (located_at st) (g_course (q_glob q)) m).
Proof.
  intros L SN SI FA FB. pose proof (loaded_frame _ _ _ _ _ L) as F. pose proof F as [NE FI]. destruct (loaded_ready _ _ _ _ _ L) as (_ & DD & _ & d & ED & EI & _).
  unfold st_radiation. rewrite SN. unfold daily_frame. rewrite DD. unfold rad_needs. cbn [orb List.app first_missing].
  destruct (String.eqb_spec m "mean_course") as [->|N].
  - cbn [bind]. unfold disaggregate_radiation. cbn [String.eqb Ascii.eqb Bool.eqb orb negb]. rewrite (day_frame_hours e dd d0 n F). cbn [bind].
    destruct (g_course (q_glob q)) as [c|]; cbn [given first_missing]; [|reflexivity]. pose proof (mapM_course c d0 n) as K.
    destruct (mapM _ _) as [nv|y]; destruct K as [K1 ->]; cbn [bind first_missing]; [|rewrite K1; reflexivity].
    destruct (has dd "glob") eqn:C; [|rewrite (fcol_false _ _ C); reflexivity]. destruct (has_true e st d0 n dd _ L C) as (g & G). destruct (column_daily _ _ _ _ _ F G) as [-> _]. cbn [bind].
    rewrite daily_reindex_ok. apply (finish_ok e st d0 n dd); [exact L|cbn; tauto|]. unfold index. rewrite scale_index. apply map_fst_combine. rewrite hours_length. lia.
  - rewrite ED. unfold located_at. destruct (s_lon st) as [lon|]; cbn [given andb first_missing]; [|reflexivity]. destruct (s_lat st) as [lat|]; cbn [given andb first_missing]; [|reflexivity].
    destruct (s_tz st) as [tz|]; cbn [given andb first_missing]; [|reflexivity]. cbn [bind]. rewrite EI.
    set (pot := potential_radiation _ _ _ _ _ _ _). assert (PI : map fst pot = hours_index d0 n) by apply pot_labels. clearbody pot.
    destruct (one_of m ["pot_rad"; "pot_rad_via_ssd"; "pot_rad_via_bc"]%string) eqn:M.
    2:{ unfold disaggregate_radiation. unfold one_of in M. cbn [existsb] in M. destruct (String.eqb m "pot_rad"); [discriminate|]. destruct (String.eqb m "pot_rad_via_ssd"); [discriminate|].
        destruct (String.eqb m "pot_rad_via_bc"); [discriminate|]. destruct (String.eqb_spec m "mean_course"); [contradiction|]. reflexivity. }
    apply one_of_In in M. destruct M as [<-|[<-|[<-|[]]]]; cbn [String.eqb Ascii.eqb Bool.eqb first_missing].
    + destruct (has dd "glob") eqn:C.
      * destruct (has_true e st d0 n dd _ L C) as (g & G). change (@Some (series xr)) with (@Some (list (Z * xr))). rewrite (rad_pot e dd d0 n g _ pot _ _ _ F G). apply (finish_ok e st d0 n dd); [exact L|cbn; tauto|]. unfold index. rewrite scale_index. exact PI.
      * unfold disaggregate_radiation. cbn [String.eqb Ascii.eqb Bool.eqb orb negb]. rewrite (day_frame_hours e dd d0 n F). cbn [bind]. rewrite (fcol_false _ _ C). reflexivity.
    + destruct (has dd "ssd") eqn:C.
      * destruct (has_true e st d0 n dd _ L C) as (g & G). change (@Some (series xr)) with (@Some (list (Z * xr))).
        rewrite ?SN, (rad_ssd e dd d0 n g sun pot _ _ _ _ _ F G SI PI (params_of _ FA)). apply (finish_ok e st d0 n dd); [exact L|cbn; tauto|]. unfold index. rewrite scale_index. exact PI.
      * unfold disaggregate_radiation. cbn [String.eqb Ascii.eqb Bool.eqb orb negb]. rewrite (day_frame_hours e dd d0 n F). cbn [bind]. rewrite (fcol_false _ _ C), SN. reflexivity.
    + destruct (has dd "tmin") eqn:C1.
      * destruct (has_true e st d0 n dd _ L C1) as (a & A). destruct (has dd "tmax") eqn:C2; cbn [andb].
        -- destruct (has_true e st d0 n dd _ L C2) as (b & B). change (@Some (series xr)) with (@Some (list (Z * xr))).
           rewrite (rad_bc e dd d0 n a b _ pot _ _ _ _ _ F A B PI (params_of _ FB)). apply (finish_ok e st d0 n dd); [exact L|cbn; tauto|]. unfold index. rewrite scale_index. exact PI.
        -- destruct (column_daily _ _ _ _ _ F A) as [EA _]. unfold disaggregate_radiation. cbn [String.eqb Ascii.eqb Bool.eqb orb negb]. rewrite (day_frame_hours e dd d0 n F). cbn [bind]. rewrite EA. cbn [bind]. rewrite (fcol_false _ _ C2). reflexivity.
      * unfold disaggregate_radiation. cbn [String.eqb Ascii.eqb Bool.eqb orb negb]. rewrite (day_frame_hours e dd d0 n F). cbn [bind]. rewrite (fcol_false _ _ C1). reflexivity.
Qed.
Theorem C118_radiation e q st d0 n dd m : loaded e st d0 n dd -> (forall sun, s_sun st = Some sun -> map fst sun = daily_index d0 n) ->
  full_table (g_angstroem (q_glob q)) -> full_table (g_bristcamp (q_glob q)) ->
  raised (st_radiation e q st m None) = first_missing (rad_needs dd d0 n (given (s_sun st)) (located_at st) (g_course (q_glob q)) m).
Proof.
  intros L SF FA FB. destruct (s_sun st) as [sun|] eqn:SN; [exact (rad_after e q st d0 n dd m sun L SN (SF sun eq_refl) FA FB)|].
  unfold rad_needs. cbn [given orb List.app first_missing]. destruct (located_at st) eqn:P.
  - unfold located_at in P. destruct (s_lon st) as [lon|] eqn:P1; [|discriminate]. destruct (s_lat st) as [lat|] eqn:P2; [|discriminate]. destruct (s_tz st) as [tz|] eqn:P3; [|discriminate].
    destruct L as (C & D & NE & I). set (st1 := with_sun st (Some (get_sun_times (f_index dd) lon lat tz))).
    assert (E : st_radiation e q st m None = st_radiation e q st1 m None).
    { unfold st_radiation at 1. rewrite SN. unfold calc_sun_times. rewrite D, P1, P2, P3. reflexivity. }
    assert (L1 : loaded e st1 d0 n dd) by (split; [apply (consistent_frames e st1 st); [split; reflexivity|exact C]|repeat split; assumption]).
    rewrite E, (rad_after e q st1 d0 n dd m _ L1 eq_refl); [|rewrite I; apply sun_table_days|exact FA|exact FB].
    replace (located_at st1) with true by (unfold located_at, st1; cbn [with_sun s_lon s_lat s_tz]; rewrite P1, P2, P3; reflexivity). reflexivity.
  - unfold st_radiation. rewrite SN. unfold calc_sun_times. rewrite (proj1 (proj2 L)). unfold located_at in P. destruct (s_lon st); [|reflexivity]. destruct (s_lat st); [|reflexivity]. destruct (s_tz st); [discriminate|reflexivity].
Qed.
Print Assumptions C118_radiation.

(** ** The hypotheses are met *)
Lemma ex_program cf mb fc lr pc : exists st df, nth_error (w_stations (run cf mb fc lr pc modern ex_ops empty_world)) 0 = Some st /\
  s_daily st = Some df /\ f_index df = daily_index 1 2 /\ s_sun st = None /\ has df "precip" = true /\ has df "wind" = false.
Proof. do 2 eexists. split; [reflexivity|]. split; [reflexivity|]. split; [reflexivity|]. split; [reflexivity|]. split; reflexivity. Qed.
Example C118_met cf mb fc lr pc : exists st df,
  nth_error (w_stations (run cf mb fc lr pc modern ex_ops empty_world)) 0 = Some st /\ loaded modern st 1 2 df /\ sun_fits st 1 2 /\
  (forall l, q_delta (new_stats None None None) = Some l -> numbers l) /\
  full_table (g_angstroem init_glob) /\ full_table (g_bristcamp init_glob) /\
  raised (st_precipitation modern (new_stats None None None) st "equal" true 0 None (fun _ _ => NaN)) = None /\
  raised (st_precipitation modern (new_stats None None None) st "cascade" true 0 None (fun _ _ => NaN)) = Some TypeError /\
  raised (st_wind modern (new_stats None None None) st "equal" (fun _ => NaN)) = Some AttributeError.
Proof.
  pose proof ex_ops_ok as V. destruct (ex_program cf mb fc lr pc) as (st & df & H & D & I & S & P & W). pose proof (C116_consistent cf mb fc lr pc modern ex_ops 0 st V H) as C.
  assert (L : loaded modern st 1 2 df) by (split; [exact C|]; split; [exact D|]; split; [discriminate|exact I]).
  assert (FT : forall (v : xr * xr) m, 1 <= m <= 12 -> exists x, entry_of m (map (fun k => (Z.of_nat k, v)) (seq 1 12)) = Some x).
  { intros v m Hm. exists v. assert (K : m = 1 \/ m = 2 \/ m = 3 \/ m = 4 \/ m = 5 \/ m = 6 \/ m = 7 \/ m = 8 \/ m = 9 \/ m = 10 \/ m = 11 \/ m = 12) by lia.
    decompose [or] K; subst; reflexivity. }
  exists st, df. split; [exact H|]. split; [exact L|]. split; [intros sun X; congruence|]. split; [discriminate|]. split; [exact (FT _)|]. split; [exact (FT _)|].
  destruct (C118_precipitation modern (new_stats None None None) st 1 2 df "equal" true 0 None (fun _ _ => NaN) L) as (_ & A & _); [discriminate|].
  destruct (C118_precipitation modern (new_stats None None None) st 1 2 df "cascade" true 0 None (fun _ _ => NaN) L) as (B & _ & _); [discriminate|].
  split; [rewrite (A eq_refl); unfold prec_needs; cbn [List.app first_missing one_of existsb String.eqb Ascii.eqb Bool.eqb orb]; rewrite P; reflexivity|].
  split; [apply B; reflexivity|]. rewrite (C118_wind modern _ st 1 2 df _ _ L). unfold wind_needs. cbn [List.app first_missing]. rewrite W. reflexivity.
Qed.
(** a complete station with sun times, on which the calls succeed *)
Definition nd_station : station :=
  {| s_lon := Some (Fin 10); s_lat := Some (Fin 48); s_tz := Some (Fin 1); s_stats := O; s_daily := Some nm_daily; s_disagg := Some (empty_hourly (hours_index 0 1));
     s_sun := Some [(0%Z, {| sunrise := Fin 6; sunnoon := Fin 12; sunset := Fin 18; daylength := Fin 12 |})] |}.
Example C118_met_sun : loaded modern nd_station 0 1 nm_daily /\ sun_fits nd_station 0 1 /\
  (forall sun, s_sun nd_station = Some sun -> map fst sun = daily_index 0 1) /\
  raised (st_temperature modern nm_stats nd_station "sine" "sun_loc" false) = None /\
  raised (st_temperature modern nm_stats nd_station "sine" "sun_loc_shift" false) = Some TypeError /\
  raised (st_radiation modern nm_stats nd_station "pot_rad_via_ssd" None) = None /\
  raised (st_humidity modern nm_stats nd_station "month_hour_precip_mean" true) = None.
Proof.
  assert (L : loaded modern nd_station 0 1 nm_daily).
  { split; [|repeat split; discriminate]. split; [discriminate|]. split.
    - intros d X. injection X as <-. apply empty_hourly_shape.
    - intros df X. injection X as <-. split.
      + intros c v x I A Hx. cbn in I. destruct I as [<-|[<-|[<-|[]]]]; cbn in A; [injection A as <-|injection A as <-|discriminate];
          destruct Hx as [<-|[]]; cbn; lra.
      + exists [0]. split; [repeat constructor|]. split; [reflexivity|]. split.
        * intros c v I. cbn in I. repeat destruct I as [I|I]; try (injection I as <- <-; reflexivity). destruct I.
        * intros _ _. eexists. split; reflexivity. }
  assert (SF : sun_fits nd_station 0 1).
  { intros sun X. injection X as <-. exists [6%R], [12%R]. split; [reflexivity|]. split; [reflexivity|]. split; [reflexivity|]. split; [reflexivity|]. split; [reflexivity|].
    repeat constructor. exists 12%R. split; [reflexivity|lra]. }
  assert (SI : forall sun, s_sun nd_station = Some sun -> map fst sun = daily_index 0 1) by (intros sun X; injection X as <-; reflexivity).
  assert (FT : forall (v : xr * xr) m, 1 <= m <= 12 -> exists x, entry_of m (map (fun k => (Z.of_nat k, v)) (seq 1 12)) = Some x).
  { intros v m Hm. exists v. assert (K : m = 1 \/ m = 2 \/ m = 3 \/ m = 4 \/ m = 5 \/ m = 6 \/ m = 7 \/ m = 8 \/ m = 9 \/ m = 10 \/ m = 11 \/ m = 12) by lia.
    decompose [or] K; subst; reflexivity. }
  split; [exact L|]. split; [exact SF|]. split; [exact SI|].
  split; [rewrite (C118_temperature modern nm_stats nd_station 0 1 nm_daily _ _ _ L SF); [reflexivity|discriminate]|].
  split; [rewrite (C118_temperature modern nm_stats nd_station 0 1 nm_daily _ _ _ L SF); [reflexivity|discriminate]|].
  split; [rewrite (C118_radiation modern nm_stats nd_station 0 1 nm_daily _ L SI (FT _) (FT _)); reflexivity|].
  rewrite (C118_humidity modern nm_stats nd_station 0 1 nm_daily _ _ L). reflexivity.
Qed.

(** ** The function without hourly temperatures *)
Theorem C118_no_temperature e dd d0 n tmin a0 a1 k mhp keep : SpecRad.day_frame dd d0 n -> has_column dd "tmin" tmin -> k = 6 \/ k = 12 ->
  (forall m, In m ["minimal"; "dewpoint_regression"; "linear_dewpoint_variation"]%string ->
     disaggregate_humidity e dd m None (Some a0) (Some a1) (Some k) mhp keep = Err AttributeError) /\
  (forall hmin hmax tmax, has_column dd "hum_min" hmin -> has_column dd "hum_max" hmax -> has_column dd "tmax" tmax ->
     disaggregate_humidity e dd "min_max" None (Some a0) (Some a1) (Some k) mhp keep = Err TypeError).
Proof.
  intros F H K. destruct (column_daily dd d0 n _ _ F H) as [E L]. pose proof (proj1 F) as NE.
  assert (D : forall b x y, dewpoint_humidity saturation_x wave_x e b (daily d0 tmin) None x y (Some k) = Err AttributeError).
  { intros b x y. unfold dewpoint_humidity. rewrite <- (daily_map (fun v => (x + y * v)%num)). rewrite (distribute_daily e d0 n) by (rewrite ?map_length; assumption). cbn [bind].
    destruct b; [|reflexivity]. destruct K as [-> | ->]; reflexivity. }
  split.
  - intros m [<-|[<-|[<-|[]]]]; unfold disaggregate_humidity, disaggregate_humidity_gen, raw_humidity; cbn [existsb String.eqb Ascii.eqb Bool.eqb orb negb]; rewrite E; cbn [bind]; rewrite D; reflexivity.
  - intros hmin hmax tmax A B C. destruct (column_daily dd d0 n _ _ F A) as [EA LA]. destruct (column_daily dd d0 n _ _ F B) as [EB LB]. destruct (column_daily dd d0 n _ _ F C) as [EC LC].
    unfold disaggregate_humidity, disaggregate_humidity_gen, raw_humidity. cbn [existsb String.eqb Ascii.eqb Bool.eqb orb negb]. rewrite (proj1 A), (proj1 B), EA, EB, E, EC. cbn [bind].
    rewrite (distribute_daily e d0 n hmin LA NE). cbn [bind]. rewrite (distribute_daily e d0 n hmax LB NE). cbn [bind]. rewrite (distribute_daily e d0 n tmin L NE). cbn [bind].
    rewrite (distribute_daily e d0 n tmax LC NE). reflexivity.
Qed.
Print Assumptions C118_no_temperature.
Example C118_no_temperature_met : SpecRad.day_frame nm_daily 0 1 /\ has_column nm_daily "tmin" [Fin 270] /\ has_column nm_daily "hum_min" [Fin 30] /\
  has_column nm_daily "hum_max" [Fin 90] /\ has_column nm_daily "tmax" [Fin 290].
Proof. repeat split; discriminate. Qed.
