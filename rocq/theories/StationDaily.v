(** Proofs about the assignment of daily data. *)
From Coq Require Import String ZArith List Bool Reals Sorted Lia Lra.
From Verif Require Import Py Num Cal Series Frame SpecBase TimeProofs IndexProofs DaysProofs InterpProofs TempProofs RadBC UtilModel AggModel BuildProofs Trans UtilModel2
  SpecUtil SunProofs TempModel RadModel HumModel WindModel StationModel SpecStation StationProofs.
Import ListNotations.
Open Scope Z_scope.

Lemma increasing_sorted l : is_increasing l = true -> StronglySorted Z.le l.
Proof.
  induction l as [|a [|b l] IH]; intro H; [constructor|constructor; constructor|].
  cbn [is_increasing] in H. apply andb_true_iff in H as [H1 H2]. apply Z.leb_le in H1. specialize (IH H2).
  constructor; [exact IH|]. constructor; [exact H1|]. apply StronglySorted_inv in IH as [_ F].
  eapply Forall_impl; [|exact F]. intros x Hx. cbn in Hx. lia.
Qed.
Lemma sorted_increasing l : StronglySorted Z.lt l -> is_increasing l = true.
Proof.
  induction 1 as [|a l SS IH F]; [reflexivity|]. destruct l as [|b l]; [reflexivity|]. cbn [is_increasing]. cbn [is_increasing] in IH. rewrite IH, andb_true_r.
  inversion F; subst. apply Z.leb_le. lia.
Qed.
Lemma increasing_nodup l : is_increasing l = true -> NoDup l -> StronglySorted Z.lt l.
Proof.
  intros H ND. apply increasing_sorted in H. induction H as [|a l SS IH F]; [constructor|].
  inversion ND as [|? ? NI ND']; subst. constructor; [apply IH, ND'|]. rewrite Forall_forall in *. intros x Hx. specialize (F x Hx).
  assert (x <> a) by (intro; subst; contradiction). lia.
Qed.
Lemma increasing_adjacent l i a b : is_increasing l = true -> nth_error l i = Some a -> nth_error l (S i) = Some b -> a <= b.
Proof.
  revert i. induction l as [|x [|y l] IH]; intros i H A B; [destruct i; discriminate A|destruct i as [|[|i]]; discriminate B|].
  cbn [is_increasing] in H. apply andb_true_iff in H as [H1 H2]. destruct i as [|i].
  - cbn in A, B. apply Z.leb_le in H1. congruence.
  - apply (IH i H2 A B).
Qed.

(** all stamps at midnight *)
Lemma resolution_midnight idx : day_resolution idx = true -> map midnight (map date_of idx) = idx.
Proof.
  intro H. unfold day_resolution in H. rewrite forallb_forall in H. rewrite map_map. rewrite <- (map_id idx) at 2. apply map_ext_in.
  intros t Ht. specialize (H t Ht). apply Z.eqb_eq in H. unfold midnight, date_of. 
  pose proof (Z.div_mod t us_day ltac:(unfold us_day; lia)). lia.
Qed.
Lemma sorted_dates idx : day_resolution idx = true -> StronglySorted Z.lt idx -> StronglySorted Z.lt (map date_of idx).
Proof.
  intros R SS. assert (E := resolution_midnight idx R). revert SS. rewrite <- E at 1. generalize (map date_of idx) as ds.
  induction ds as [|d ds IH]; cbn [map]; intro SS; [constructor|]. apply StronglySorted_inv in SS as [SS F]. constructor; [apply IH, SS|].
  rewrite Forall_forall in *. intros x Hx. specialize (F (midnight x) (in_map _ _ _ Hx)). unfold midnight, us_day in F. lia.
Qed.

(** the days of the filled frame *)
Definition span (idx : list Z) : nat := Z.to_nat ((last idx 0 - hd 0 idx) / us_day + 1).
Lemma last_ne (x : Z) l d d' : last (x :: l) d = last (x :: l) d'.
Proof. revert x. induction l as [|y l IH]; intro x; [reflexivity|]. apply IH. Qed.
Lemma last_in (x : Z) l d : In (last (x :: l) d) (x :: l).
Proof. revert x. induction l as [|y l IH]; intro x; [left; reflexivity|]. right. apply (IH y). Qed.
Lemma sorted_ends x l : StronglySorted Z.le (x :: l) -> forall t, In t (x :: l) -> x <= t <= last (x :: l) 0.
Proof.
  revert x. induction l as [|y l IH]; intros x SS t Ht.
  - destruct Ht as [<-|[]]. cbn. lia.
  - pose proof SS as SS0. apply StronglySorted_inv in SS as [SS F]. rewrite Forall_forall in F. specialize (IH y SS).
    change (last (x :: y :: l) 0) with (last (y :: l) 0). destruct Ht as [<-|Ht].
    + assert (x <= y) by (apply F; left; reflexivity). specialize (IH y (or_introl eq_refl)). lia.
    + specialize (IH t Ht). specialize (F t Ht). lia.
Qed.
Lemma span_range t0 l : day_resolution (t0 :: l) = true -> is_increasing (t0 :: l) = true ->
  date_range t0 (last (t0 :: l) t0) us_day = daily_index (date_of t0) (span (t0 :: l)) /\
  t0 = date_of t0 * us_day /\ last (t0 :: l) 0 = (date_of t0 + Z.of_nat (span (t0 :: l)) - 1) * us_day /\
  (forall t, In t (t0 :: l) -> In t (daily_index (date_of t0) (span (t0 :: l)))) /\ span (t0 :: l) <> O.
Proof.
  intros R I. pose proof (sorted_ends t0 l (increasing_sorted _ I)) as B.
  assert (M : forall t, In t (t0 :: l) -> t = date_of t * us_day).
  { intros t Ht. unfold day_resolution in R. rewrite forallb_forall in R. specialize (R t Ht). apply Z.eqb_eq in R. unfold date_of.
    pose proof (Z.div_mod t us_day ltac:(unfold us_day; lia)). lia. }
  pose proof (M t0 (or_introl eq_refl)) as M0. pose proof (M _ (last_in t0 l 0)) as M1.
  assert (LE : t0 <= last (t0 :: l) 0) by (apply B; left; reflexivity).
  rewrite (last_ne t0 l t0 0). set (b := last (t0 :: l) 0) in *.
  assert (SP : (span (t0 :: l) = Z.to_nat (date_of b - date_of t0 + 1))).
  { unfold span. cbn [hd]. fold b. rewrite M0 at 1. rewrite M1 at 1. rewrite <- Z.mul_sub_distr_r, Z.div_mul by (unfold us_day; lia). reflexivity. }
  assert (DLE : date_of t0 <= date_of b) by (unfold date_of; apply Z.div_le_mono; [unfold us_day; lia|exact LE]).
  repeat apply conj.
  - rewrite date_range_grid by (try exact LE; unfold us_day; lia). unfold daily_index. rewrite <- M0. f_equal.
  - exact M0.
  - rewrite SP, M1 at 1. f_equal. lia.
  - intros t Ht. unfold daily_index. apply grid_In. specialize (B t Ht). exists (Z.to_nat (date_of t - date_of t0)).
    assert (D1 : date_of t0 <= date_of t) by (unfold date_of; apply Z.div_le_mono; [unfold us_day; lia|lia]).
    assert (D2 : date_of t <= date_of b) by (unfold date_of; apply Z.div_le_mono; [unfold us_day; lia|lia]).
    rewrite SP. split; [lia|]. rewrite Z2Nat.id by lia. rewrite (M t Ht) at 1. ring.
  - lia.
Qed.

Lemma row_value_lookup t idx v : row_value t idx v = match lookup t (combine idx v) with Some x => x | None => NaN end.
Proof. revert v. induction idx as [|u idx IH]; intros [|x v]; try reflexivity. cbn [row_value combine lookup]. destruct (u =? t); [reflexivity|apply IH]. Qed.
Lemma align_rows idx v l : align (combine idx v) l = map (fun t => row_value t idx v) l.
Proof. unfold align. apply map_ext. intro t. symmetry. apply row_value_lookup. Qed.
Lemma row_value_nth idx v i t x : NoDup idx -> nth_error idx i = Some t -> nth_error v i = Some x -> row_value t idx v = x.
Proof.
  revert v i. induction idx as [|u idx IH]; intros v i ND A B; [destruct i; discriminate A|].
  destruct v as [|y v]; [destruct i; discriminate B|]. inversion ND as [|? ? NI ND']; subst. cbn [row_value]. destruct i as [|i].
  - cbn in A, B. injection A as ->. rewrite Z.eqb_refl. congruence.
  - cbn in A, B. destruct (Z.eqb_spec u t) as [->|]; [exfalso; apply NI; eapply nth_error_In, A|]. apply (IH v i ND' A B).
Qed.
Lemma nth_error_same {A} (l1 l2 : list A) : (forall i, nth_error l1 i = nth_error l2 i) -> l1 = l2.
Proof.
  revert l2. induction l1 as [|a l1 IH]; intros [|b l2] H; [reflexivity|specialize (H O); discriminate H|specialize (H O); discriminate H|].
  f_equal; [specialize (H O); cbn in H; congruence|apply IH; intro i; exact (H (S i))].
Qed.
Lemma rows_self idx v : NoDup idx -> length v = length idx -> map (fun t => row_value t idx v) idx = v.
Proof.
  intros ND L. apply nth_error_same. intro i. 
  destruct (nth_error idx i) as [t|] eqn:E.
  - rewrite (map_nth_error _ _ _ E). destruct (nth_error v i) as [x|] eqn:Ev.
    + f_equal. eapply row_value_nth; eassumption.
    + apply nth_error_None in Ev. assert (i < length idx)%nat by (apply nth_error_Some; congruence). lia.
  - apply nth_error_None in E. symmetry. transitivity (@None xr); [apply nth_error_None; lia|]. symmetry. apply nth_error_None. rewrite map_length. exact E.
Qed.
Lemma assoc_in {A} c (v : A) l : assoc c l = Some v -> In (c, v) l.
Proof. induction l as [|[k x] l IH]; cbn; [discriminate|]. destruct (String.eqb_spec k c) as [->|]; intro H; [left; congruence|right; auto]. Qed.
Lemma assoc_map_cols {A B} c (f : A -> B) l : assoc c (map (fun p => (fst p, f (snd p))) l) = option_map f (assoc c l).
Proof. induction l as [|[k v] l IH]; [reflexivity|]. cbn [map fst snd assoc]. destruct (String.eqb k c); [reflexivity|exact IH]. Qed.

(** the frame that is stored *)
Definition stored (f : pframe) (df : dframe xr) : Prop :=
  let idx := f_index (p_data f) in
  exists d0 n, n <> O /\ f_index df = daily_index d0 n /\ hd 0 idx = d0 * us_day /\ last idx 0 = (d0 + Z.of_nat n - 1) * us_day /\
    map fst (f_cols df) = map fst (f_cols (p_data f)) /\
    (forall c v, assoc c (f_cols (p_data f)) = Some v ->
       assoc c (f_cols df) = Some (map (fun t => row_value t idx v) (daily_index d0 n))).

Lemma fill_none f : p_freq f = false -> day_resolution (f_index (p_data f)) = true -> is_increasing (f_index (p_data f)) = true ->
  match fill_days f with
  | Ok df => stored f df /\ NoDup (f_index (p_data f))
  | Err _ => f_index (p_data f) = [] \/ ~ NoDup (f_index (p_data f))
  end.
Proof.
  intros P R I. unfold fill_days. rewrite P. destruct (f_index (p_data f)) as [|t0 l] eqn:E; [left; reflexivity|].
  destruct (span_range t0 l R I) as (D & M0 & M1 & _ & N0). rewrite D. unfold frame_reindex. rewrite E.
  destruct (has_dup (t0 :: l)) eqn:HD.
  - right. intro ND. apply has_dup_NoDup in ND. congruence.
  - split; [|apply has_dup_NoDup, HD]. unfold stored. rewrite E. exists (date_of t0), (span (t0 :: l)). cbn [f_index f_cols hd].
    repeat apply conj; [exact N0|reflexivity|exact M0|exact M1|rewrite map_map; reflexivity|].
    intros c v H. rewrite (assoc_map_cols c (fun v => align (combine (t0 :: l) v) (daily_index (date_of t0) (span (t0 :: l))))), H. cbn [option_map].
    rewrite align_rows. reflexivity.
Qed.
(** contiguous days: the index is the filled one *)
Lemma hourly_index_contiguous e d0 n : n <> O -> hourly_index e (daily_index d0 n) = Ok (hours_index d0 n).
Proof.
  intro H. assert (E : daily_index d0 n = map midnight (zseq d0 n)).
  { unfold daily_index, zseq, grid. rewrite map_map. apply map_ext. intro i. unfold midnight. ring. }
  rewrite E, hourly_index_gapfree.
  - unfold hours_index. rewrite hours_flat. reflexivity.
  - intro NZ. apply (f_equal (@length Z)) in NZ. unfold zseq in NZ. rewrite grid_length in NZ. cbn in NZ. lia.
  - apply zseq_sorted.
  - intros g x y Hx Hy G. unfold zseq in *. apply grid_In in Hx as (i & Hi & ->). apply grid_In in Hy as (j & Hj & ->). apply grid_In.
    exists (Z.to_nat (g - d0)). split; lia.
Qed.
(** with a frequency: the hourly index exists only for contiguous days (unless pandas is old) *)
Lemma fill_freq e f hours : p_freq f = true -> frame_ok f -> has_index_to_datetime e = false ->
  day_resolution (f_index (p_data f)) = true -> is_increasing (f_index (p_data f)) = true ->
  hourly_index e (f_index (p_data f)) = Ok hours -> stored f (p_data f).
Proof.
  intros P [FL FS] T R I H. specialize (FS P I). set (idx := f_index (p_data f)) in *.
  pose proof (resolution_midnight idx R) as M. pose proof (sorted_dates idx R FS) as SD. rewrite <- M in H.
  destruct idx as [|t0 l] eqn:E; [discriminate H|].
  destruct (span_range t0 l R I) as (D & M0 & M1 & INC & N0).
  rewrite hourly_index_days in H by (try exact SD; discriminate). rewrite T in H. cbn [negb] in H. rewrite andb_true_r in H.
  destruct (Nat.ltb_spec (length (map date_of (t0 :: l))) (length (zseq (hd 0 (map date_of (t0 :: l))) (Z.to_nat (last (map date_of (t0 :: l)) 0 - hd 0 (map date_of (t0 :: l)) + 1))))) as [|GE]; [discriminate H|].
  assert (IDX : t0 :: l = daily_index (date_of t0) (span (t0 :: l))).
  { apply sorted_same; [exact FS|apply grid_sorted; reflexivity|]. intro x. split; [apply INC|].
    apply (NoDup_length_incl (l := t0 :: l)); [apply sorted_NoDup, FS| |exact INC].
    unfold daily_index. rewrite grid_length. unfold zseq in GE. rewrite grid_length, map_length in GE. cbn [map hd] in GE.
    assert (LD : last (date_of t0 :: map date_of l) 0 = date_of (last (t0 :: l) 0)).
    { clear. revert t0. induction l as [|y l IH]; intro x; [reflexivity|]. apply (IH y). }
    rewrite LD in GE. rewrite M1 in GE. unfold date_of in GE at 1. rewrite Z.div_mul in GE by (unfold us_day; lia). lia. }
  assert (E' : f_index (p_data f) = t0 :: l) by exact E.
  unfold stored. cbv zeta. rewrite E'. exists (date_of t0), (span (t0 :: l)). repeat apply conj; [exact N0| |exact M0|exact M1|reflexivity|].
  - exact IDX.
  - intros c v Hv. rewrite Hv. f_equal. rewrite <- IDX. symmetry. apply rows_self; [apply sorted_NoDup, FS|].
    apply (FL c v). apply assoc_in, Hv.
Qed.
Lemma map_const {A B} (y : B) (l : list A) : map (fun _ => y) l = repeat y (length l).
Proof. induction l; cbn; congruence. Qed.

(** successful assignment *)
Lemma set_daily_success e st f st' : frame_ok f -> (p_freq f = false \/ has_index_to_datetime e = false) ->
  set_daily e st (VFrame f) = (st', None) ->
  exists d0 n df, n <> O /\ s_daily st' = Some df /\ f_index df = daily_index d0 n /\
    hd 0 (f_index (p_data f)) = d0 * us_day /\ last (f_index (p_data f)) 0 = (d0 + Z.of_nat n - 1) * us_day /\
    map fst (f_cols df) = map fst (f_cols (p_data f)) /\
    (forall c v, assoc c (f_cols (p_data f)) = Some v ->
       assoc c (f_cols df) = Some (map (fun t => row_value t (f_index (p_data f)) v) (daily_index d0 n))) /\
    s_disagg st' = Some (Build_dframe (hours_index d0 n) (map (fun c => (c, repeat NaN (24 * n))) hourly_names)) /\
    (s_tz st = None -> s_sun st' = s_sun st) /\
    (forall tz, s_tz st = Some tz -> exists lon lat, s_lon st = Some lon /\ s_lat st = Some lat /\
       s_sun st' = Some (get_sun_times (daily_index d0 n) lon lat tz)).
Proof.
  intros FO EV H. unfold set_daily in H.
  destruct (negb (p_datetime f)); [discriminate H|].
  destruct (day_resolution (f_index (p_data f))) eqn:R; [|discriminate H]. cbn [negb] in H.
  destruct (is_increasing (f_index (p_data f))) eqn:I; [|discriminate H]. cbn [negb] in H.
  destruct (fill_days f) as [df|x] eqn:F; [|discriminate H].
  destruct (existsb (too_cold df) _); [discriminate H|].
  destruct (hourly_index e (f_index df)) as [hours|x] eqn:HI; [|discriminate H].
  assert (ST : stored f df).
  { destruct (p_freq f) eqn:P.
    - assert (df = p_data f) by (unfold fill_days in F; rewrite P in F; congruence). subst df.
      destruct EV as [|EV]; [discriminate|]. eapply fill_freq; eassumption.
    - pose proof (fill_none f P R I) as X. rewrite F in X. apply X. }
  destruct ST as (d0 & n & N0 & A1 & A2 & A3 & A4 & A5). exists d0, n, df.
  rewrite A1, hourly_index_contiguous in HI by exact N0. assert (hours = hours_index d0 n) by congruence. subst hours.
  assert (EH : empty_hourly (hours_index d0 n) = Build_dframe (hours_index d0 n) (map (fun c => (c, repeat NaN (24 * n))) hourly_names)).
  { unfold empty_hourly. f_equal. rewrite map_const. unfold hours_index. rewrite grid_length. reflexivity. }
  rewrite EH in H. clear EH. cbn [with_disagg with_daily s_tz] in H.
  destruct (s_tz st) as [tz|] eqn:TZ.
  - unfold calc_sun_times in H. cbn [with_disagg with_daily s_daily s_lon s_lat s_tz s_stats s_sun s_disagg] in H.
    destruct (s_lon st) as [lon|] eqn:LO; [|discriminate H]. destruct (s_lat st) as [lat|] eqn:LA; [|discriminate H].
    rewrite TZ in H. injection H as H. rewrite <- H.
    cbn [with_sun s_daily s_disagg s_sun]. rewrite A1.
    repeat apply conj; try assumption; try reflexivity; [discriminate|]. intros tz' E'. injection E' as <-. exists lon, lat. repeat split.
  - assert (E2 : st' = with_disagg (with_daily st (Some df)) (Some (Build_dframe (hours_index d0 n) (map (fun c => (c, repeat NaN (24 * n))) hourly_names)))) by (cbv [with_disagg with_daily s_lon s_lat s_tz s_stats s_daily s_disagg s_sun] in *; congruence).
    subst st'. cbn [with_disagg with_daily s_daily s_disagg s_sun].
    repeat apply conj; try assumption; try reflexivity. discriminate.
Qed.

(** ** refused frames *)
Lemma cold_ltb x : cold x <-> (x <? n_ofZ 200)%num = true.
Proof.
  rewrite nofZ_xr. destruct x as [r| | |]; cbn [cold].
  - rewrite xltb_Fin. destruct (Rltb_spec r 200); split; intro H; first [reflexivity|contradiction|discriminate H|assumption].
  - split; [intros []|intro H; discriminate H].
  - split; [reflexivity|trivial].
  - split; [intros []|intro H; discriminate H].
Qed.
Lemma refused_unchanged e st v : match v with VFrame f => frame_ok f | VOther => True end -> refused v ->
  fst (set_daily e st v) = st /\ snd (set_daily e st v) <> None.
Proof.
  assert (OUT : forall x, fst (st, Some x) = st /\ snd (st, Some x : option exn) <> None) by (intro x; split; [reflexivity|discriminate]).
  intros FO RF. unfold set_daily. destruct v as [f|]; [|apply OUT].
  destruct (p_datetime f) eqn:P; cbn [negb]; [|apply OUT].
  destruct (day_resolution (f_index (p_data f))) eqn:R; cbn [negb]; [|apply OUT].
  destruct (is_increasing (f_index (p_data f))) eqn:I; cbn [negb]; [|apply OUT].
  destruct (fill_days f) as [df|x] eqn:F; [|apply OUT].
  destruct (existsb (too_cold df) _) eqn:C; [apply OUT|].
  exfalso. inversion RF as [|f0 PD|f0 t IN MD|f0 i a b NA NB LT|f0 PF DUP|f0 PF NIL|f0 c v x INC AS INX CO]; subst.
  - congruence.
  - unfold day_resolution in R. rewrite forallb_forall in R. specialize (R t IN). apply Z.eqb_eq in R. congruence.
  - pose proof (increasing_adjacent _ _ _ _ I NA NB). lia.
  - pose proof (fill_none f PF R I) as X. rewrite F in X. apply DUP, X.
  - unfold fill_days in F. rewrite PF, NIL in F. discriminate F.
  - assert (TC : too_cold df c = true).
    { unfold too_cold. assert (exists w, assoc c (f_cols df) = Some w /\ In x w) as (w & -> & Hw).
      { destruct (p_freq f) eqn:PF.
        - assert (df = p_data f) by (unfold fill_days in F; rewrite PF in F; congruence). subst df. exists v. split; assumption.
        - pose proof (fill_none f PF R I) as X. rewrite F in X. destruct X as [(d0 & n & N0 & A1 & A2 & A3 & A4 & A5) ND].
          eexists. split; [apply A5, AS|]. apply In_nth_error in INX as [i Hi].
          assert (Li : (i < length (f_index (p_data f)))%nat).
          { destruct FO as [FL _]. rewrite <- (FL c v) by apply assoc_in, AS. apply nth_error_Some. congruence. }
          destruct (nth_error (f_index (p_data f)) i) as [t|] eqn:Et; [|apply nth_error_None in Et; lia].
          apply in_map_iff. exists t. split; [eapply row_value_nth; eassumption|].
          destruct (f_index (p_data f)) as [|t0 l] eqn:E; [destruct i; discriminate Et|]. rewrite <- E in *.
          assert (I2 : is_increasing (t0 :: l) = true) by (rewrite <- E; exact I). assert (R2 : day_resolution (t0 :: l) = true) by (rewrite <- E; exact R).
          destruct (span_range t0 l R2 I2) as (_ & M0 & M1 & INC2 & _). rewrite E in A2, A3. cbn [hd] in A2.
          assert (d0 = date_of t0) by (rewrite M0 in A2; unfold us_day in A2; lia). subst d0.
          assert (n = span (t0 :: l)) by (rewrite A3 in M1; unfold us_day in M1; lia). subst n.
          apply INC2. rewrite <- E. eapply nth_error_In, Et. }
      apply existsb_exists. exists x. split; [exact Hw|]. apply cold_ltb, CO. }
    apply not_true_iff_false in C. apply C. apply existsb_exists. exists c. split; assumption.
Qed.
