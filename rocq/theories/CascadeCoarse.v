(** Proofs about the non-hourly levels 1 to 8 and about the arrays of all levels. *)
From Coq Require Import ZArith List Bool Lia Reals Lra FinFun.
From Verif Require Import Py Num Cal Series UtilModel SpecBase TimeProofs CascadeModel PrecipModel
  SpecCascade CascadeProofs CascadeSteps CascadeExact CascadeMore CascadeFive SpecCoarse.
Import ListNotations.
Open Scope Z_scope.

Lemma box_length_sub L : (L <= 11)%nat -> box_length L = sub_step L.
Proof.
  intro H. unfold box_length, sub_step.
  do 12 (destruct L as [|L]; [vm_compute; reflexivity|]). lia.
Qed.

Lemma lost_spec L : (1 <= L <= 8)%nat -> exists r, 0 <= r < 5 * us_minute /\
  sub_step L = (Z.of_nat (lost_rows L) + 1) * (5 * us_minute) - r.
Proof.
  intro H. exists ((Z.of_nat (lost_rows L) + 1) * (5 * us_minute) - sub_step L).
  do 9 (destruct L as [|L]; [try lia; vm_compute; repeat split; congruence|]). lia.
Qed.
Lemma lost_bound L : (lost_rows L <= 143)%nat.
Proof. unfold lost_rows. do 9 (destruct L as [|L]; [cbn; lia|]). destruct L; cbn; lia. Qed.
Lemma sub_step_coarse L : (1 <= L <= 8)%nat -> 5 * us_minute < sub_step L.
Proof. intro H. do 9 (destruct L as [|L]; [try lia; vm_compute; reflexivity|]). lia. Qed.

Definition short_index (d0 : Z) (n L : nat) : list Z :=
  grid (d0 * us_day) (5 * us_minute) (288 * n - lost_rows L).

Lemma short_index_firstn d0 n L : short_index d0 n L = firstn (288 * n - lost_rows L) (fivemin_index d0 n).
Proof.
  unfold short_index, fivemin_index, grid. rewrite firstn_map, firstn_seq by lia. reflexivity.
Qed.

Lemma resample_coarse {T} {N : Num T} (agg : list T -> T) d0 n L (vals : list T) :
  (1 <= L <= 8)%nat -> length vals = (2 ^ L * S n)%nat ->
  let s := combine (grid (d0 * us_day) (sub_step L) (2 ^ L * S n)) vals in
  resample (5 * us_minute) agg s
  = map (fun t => (t, agg (map snd (filter (fun p => bin5 (fst p) =? t) s))))
        (short_index d0 (S n) L).
Proof.
  intros HL Hv s. destruct (sub_step_day L ltac:(lia)) as [Ed Es].
  destruct (lost_spec L HL) as (r & Hr & El). pose proof (lost_bound L) as LB.
  assert (P2 : (1 <= 2 ^ L)%nat) by (pose proof (Nat.pow_nonzero 2 L); lia).
  destruct (2 ^ L * S n)%nat as [|k] eqn:Ek; [lia|].
  unfold resample, index. fold bin5.
  assert (Ei : map fst s = grid (d0 * us_day) (sub_step L) (S k)).
  { unfold s. apply map_fst_combine. rewrite grid_length. lia. }
  rewrite Ei, idx_min_grid, idx_max_grid by lia.
  set (f := sub_step L) in *.
  assert (A : bin5 (d0 * us_day) = d0 * us_day).
  { unfold bin5. replace (d0 * us_day) with (d0 * 288 * (5 * us_minute)) by (unfold us_day, us_minute; lia).
    rewrite Z.div_mul by (unfold us_minute; lia). reflexivity. }
  assert (B : bin5 (d0 * us_day + Z.of_nat k * f)
              = d0 * us_day + (288 * Z.of_nat (S n) - 1 - Z.of_nat (lost_rows L)) * (5 * us_minute)).
  { unfold bin5.
    assert (Q : d0 * us_day + Z.of_nat k * f
            = (d0 * 288 + 288 * Z.of_nat (S n) - 1 - Z.of_nat (lost_rows L)) * (5 * us_minute) + r).
    { assert (Z.of_nat k = Z.of_nat (2 ^ L) * Z.of_nat (S n) - 1) as -> by lia.
      rewrite Z.mul_sub_distr_r.
      replace (Z.of_nat (2 ^ L) * Z.of_nat (S n) * f) with (Z.of_nat (2 ^ L) * f * Z.of_nat (S n)) by ring.
      rewrite Ed. unfold us_day, us_minute in *. lia. }
    rewrite Q, Z.div_add_l by (unfold us_minute; lia).
    rewrite Z.div_small by (unfold us_minute in *; lia). unfold us_day, us_minute. lia. }
  fold (bin5 (d0 * us_day)). fold (bin5 (d0 * us_day + Z.of_nat k * f)).
  rewrite A, B. f_equal.
  unfold short_index. rewrite date_range_grid by (unfold us_minute; lia). f_equal.
  replace (d0 * us_day + (288 * Z.of_nat (S n) - 1 - Z.of_nat (lost_rows L)) * (5 * us_minute) - d0 * us_day)
    with ((288 * Z.of_nat (S n) - 1 - Z.of_nat (lost_rows L)) * (5 * us_minute)) by lia.
  rewrite Z.div_mul by (unfold us_minute; lia). lia.
Qed.

(** what a returned non-hourly result looks like, levels 1 to 11 *)
Lemma cascade_boxes_inv {T} {N : Num T} e d0 amounts arg L shft draws pos out :
  (1 <= L <= 11)%nat ->
  disagg_prec_cascade e (daily d0 amounts) arg false L shft draws pos = Ok (Some out) ->
  (2 <= length amounts)%nat /\
  exists boxes : list T,
    refines L (map fill0 amounts) boxes /\
    let sn := combine (grid (d0 * us_day) (sub_step L) (2 ^ L * length amounts)) boxes in
    let h := restore_missing (missing_days (daily d0 amounts)) (resample (5 * us_minute) nansum sn) in
    out = if shft =? 0 then h else shift shft h.
Proof.
  intros HL H. rewrite cascade_core in H.
  destruct (Nat.ltb_spec (length (daily d0 amounts)) 2) as [?|Hlen]; [discriminate|].
  rewrite daily_length in Hlen. split; [exact Hlen|].
  destruct (core _ _ _ _ _ _ _) as [[[lv o]|]|] eqn:C; try discriminate.
  cbv zeta in H. injection H as <-.
  unfold core in C. cbv zeta in C. cbn [n_levels] in C.
  apply bind_Ok in C. destruct C as (u & _ & C).
  apply bind_Ok in C. destruct C as (acc & E & C). destruct acc as [acc|]; [|discriminate].
  destruct (levels_from_refines _ _ _ _ _ _ _ _ _ _ (st0_ok pos) E)
    as [[E0 _]|(boxes & rest & -> & Rf)]; [lia|].
  apply bind_Ok in C. destruct C as (o2 & C & C2). injection C2 as <- <-.
  apply bind_Ok in C. destruct C as (idx & I & C).
  apply bind_Ok in C. destruct C as (sn & M & C). injection C as <-.
  rewrite zero_missing_index in I. unfold index in I. rewrite daily_fst in I.
  rewrite zero_missing_values in Rf.
  exists boxes. split; [exact Rf|]. cbv zeta.
  destruct (length amounts) as [|n] eqn:En; [lia|].
  rewrite sub_level_index_daily in I by lia.
  match type of I with Ok ?g = Ok _ => assert (idx = g) as -> by congruence end.
  unfold mk_series in M. destruct (Nat.eqb _ _); [|discriminate].
  match type of M with Ok ?g = Ok _ => assert (sn = g) as -> by congruence end.
  reflexivity.
Qed.

Lemma bin5_day t : bin5 t / us_day = t / us_day.
Proof.
  unfold bin5. replace us_day with (5 * us_minute * 288) by reflexivity.
  rewrite <- (Z.div_div (t / (5 * us_minute) * (5 * us_minute)) (5 * us_minute) 288),
    <- (Z.div_div t (5 * us_minute) 288) by (unfold us_minute; lia).
  rewrite Z.div_mul by (unfold us_minute; lia). reflexivity.
Qed.
Lemma bin5_range t u : 0 < 5 * us_minute -> u mod (5 * us_minute) = 0 ->
  (bin5 t = u <-> u <= t < u + 5 * us_minute).
Proof.
  intros P M. unfold bin5. set (b := 5 * us_minute) in *. 
  pose proof (Z.div_mod t b ltac:(lia)). pose proof (Z.mod_pos_bound t b P).
  pose proof (Z.div_mod u b ltac:(lia)). split; [intros <-|intro]; [nia|].
  assert (t / b = u / b); [|nia].
  symmetry. apply Z.div_unique with (r := t - u); [left; lia|]. nia.
Qed.

(** all boxes have a row *)
Lemma box_row d0 n L j : (1 <= L <= 8)%nat -> (j < 2 ^ L * S n)%nat ->
  In (bin5 (d0 * us_day + Z.of_nat j * sub_step L)) (short_index d0 (S n) L).
Proof.
  intros HL Hj. unfold short_index. rewrite grid_In.
  destruct (sub_step_day L ltac:(lia)) as [Ed Es]. destruct (lost_spec L HL) as (r & Hr & El).
  pose proof (lost_bound L) as LB. set (f := sub_step L) in *.
  exists (Z.to_nat (Z.of_nat j * f / (5 * us_minute))).
  assert (P : 0 <= Z.of_nat j * f / (5 * us_minute)) by (apply Z.div_pos; unfold us_minute; lia).
  rewrite Z2Nat.id by exact P. split.
  - apply Nat2Z.inj_lt. rewrite Z2Nat.id by exact P.
    apply Z.div_lt_upper_bound; [unfold us_minute; lia|].
    assert (Z.of_nat j * f <= Z.of_nat (2 ^ L) * Z.of_nat (S n) * f - f) by nia.
    replace (Z.of_nat (2 ^ L) * Z.of_nat (S n) * f) with (Z.of_nat (2 ^ L) * f * Z.of_nat (S n)) in H by ring.
    rewrite Ed in H. rewrite Nat2Z.inj_sub by lia. unfold us_day, us_minute in *. lia.
  - unfold bin5. replace (d0 * us_day) with (d0 * 288 * (5 * us_minute)) by (unfold us_day, us_minute; lia).
    rewrite Z.div_add_l by (unfold us_minute; lia). lia.
Qed.

Section Coarse.
  Variables (d0 : Z) (n' L : nat) (bs : list R).
  Hypothesis HL : (1 <= L <= 8)%nat.
  Hypothesis BL : length bs = (2 ^ L * S n')%nat.
  Let sn := combine (grid (d0 * us_day) (sub_step L) (2 ^ L * S n')) bs.
  Let rowsum (t : Z) : R := Rsum (map snd (filter (fun p => bin5 (fst p) =? t) sn)).

  Lemma coarse_rows :
    resample (5 * us_minute) nansum (combine (grid (d0 * us_day) (sub_step L) (2 ^ L * S n')) (map Fin bs))
    = map (fun t => (t, Fin (rowsum t))) (short_index d0 (S n') L).
  Proof.
    rewrite (resample_coarse _ d0 n' L) by (try exact HL; rewrite map_length; exact BL).
    apply map_ext. intro t. f_equal. unfold rowsum.
    rewrite combine_map_r. fold sn. rewrite filter_map_comm, map_map. cbn [fst snd].
    rewrite <- (map_map snd Fin). apply nansum_Fin.
  Qed.

  Lemma sn_In t x : In (t, x) sn <-> exists j, (j < 2 ^ L * S n')%nat /\
    t = d0 * us_day + Z.of_nat j * sub_step L /\ x = nth j bs 0%R.
  Proof.
    unfold sn. split.
    - intro H. apply In_nth_error in H. destruct H as [j Hj].
      assert (Hl : (j < 2 ^ L * S n')%nat).
      { assert (j < length (combine (grid (d0 * us_day) (sub_step L) (2 ^ L * S n')) bs))%nat
          by (apply nth_error_Some; congruence).
        rewrite combine_length, grid_length in H. lia. }
      exists j. split; [exact Hl|].
      apply (nth_error_nth _ _ (0, 0%R)) in Hj. 
      rewrite combine_nth in Hj by (rewrite grid_length; lia). injection Hj as <- <-.
      split; [|reflexivity]. unfold grid.
      rewrite (nth_indep _ 0 (d0 * us_day + Z.of_nat 0 * sub_step L)) by (rewrite map_length, seq_length; lia).
      rewrite (map_nth (fun i => d0 * us_day + Z.of_nat i * sub_step L)), seq_nth by lia. reflexivity.
    - intros (j & Hj & -> & ->).
      replace (d0 * us_day + Z.of_nat j * sub_step L, nth j bs 0%R)
        with (nth j (combine (grid (d0 * us_day) (sub_step L) (2 ^ L * S n')) bs) (d0 * us_day + Z.of_nat 0 * sub_step L, 0%R)).
      { apply nth_In. rewrite combine_length, grid_length. lia. }
      rewrite combine_nth by (rewrite grid_length; lia). f_equal. unfold grid.
      rewrite (map_nth (fun i => d0 * us_day + Z.of_nat i * sub_step L)), seq_nth by lia. reflexivity.
  Qed.

  Lemma coarse_day d : Rsum (map rowsum (filter (fun t => t / us_day =? d) (short_index d0 (S n') L)))
                       = Rsum (values_on d sn).
  Proof.
    unfold rowsum. rewrite Rsum_bins.
    2:{ apply NoDup_filter. apply grid_NoDup. reflexivity. }
    unfold values_on. f_equal. f_equal. apply filter_ext_in. intros [t x] Hx.
    apply sn_In in Hx. destruct Hx as (j & Hj & Et & _). cbn [fst].
    apply eq_true_iff_eq. rewrite mem_In, filter_In, bin5_day.
    split; [intros [_ H]; exact H|intro H; split; [|exact H]].
    rewrite Et. apply box_row; assumption.
  Qed.

  Lemma rowsum_none t : t mod (5 * us_minute) = 0 ->
    (forall j, (j < 2 ^ L * S n')%nat -> ~ t <= d0 * us_day + Z.of_nat j * sub_step L < t + 5 * us_minute) ->
    rowsum t = 0%R.
  Proof.
    intros Mt H. unfold rowsum.
    replace (filter _ sn) with (@nil (Z * R)); [reflexivity|].
    symmetry. assert (G : forall l, (forall p, In p l -> In p sn) -> filter (fun p => bin5 (fst p) =? t) l = []).
    { induction l as [|[u x] l IH]; intro Hl; [reflexivity|]. cbn [filter fst].
      destruct (Z.eqb_spec (bin5 u) t) as [E|E].
      - exfalso. destruct (proj1 (sn_In u x) (Hl _ (or_introl eq_refl))) as (j & Hj & Eu & _).
        apply (H j Hj). rewrite <- Eu. apply bin5_range; [reflexivity|exact Mt|exact E].
      - apply IH. intros p Hp. apply Hl. right; exact Hp. }
    apply G. auto.
  Qed.

  Lemma rowsum_one t j : t mod (5 * us_minute) = 0 -> (j < 2 ^ L * S n')%nat ->
    t <= d0 * us_day + Z.of_nat j * sub_step L < t + 5 * us_minute -> rowsum t = nth j bs 0%R.
  Proof.
    intros Mt Hj Ht. unfold rowsum. pose proof (sub_step_coarse L HL) as SC.
    replace (filter (fun p => bin5 (fst p) =? t) sn)
      with [(d0 * us_day + Z.of_nat j * sub_step L, nth j bs 0%R)]; [cbn; lra|].
    assert (ND : NoDup (filter (fun p => bin5 (fst p) =? t) sn)).
    { apply NoDup_filter. apply (NoDup_map_inv fst). unfold sn.
      rewrite map_fst_combine by (rewrite grid_length; lia). apply grid_NoDup. lia. }
    assert (All : forall p, In p (filter (fun p => bin5 (fst p) =? t) sn) <->
                  p = (d0 * us_day + Z.of_nat j * sub_step L, nth j bs 0%R)).
    { intros [u x]. rewrite filter_In, sn_In, Z.eqb_eq. cbn [fst].
      rewrite (bin5_range u t) by (try exact Mt; reflexivity). split.
      - intros [(k & Hk & -> & ->) Hu]. assert (k = j) as -> by nia. reflexivity.
      - intro E. injection E as -> ->. split; [exists j; auto|exact Ht]. }
    destruct (filter (fun p => bin5 (fst p) =? t) sn) as [|p [|q l]].
    - exfalso. apply (proj2 (All _) eq_refl).
    - f_equal. symmetry. apply All. left; reflexivity.
    - exfalso. inversion ND as [|? ? Nin _]. apply Nin. left.
      transitivity (d0 * us_day + Z.of_nat j * sub_step L, nth j bs 0%R).
      + apply All. right; left; reflexivity.
      + symmetry. apply All. left; reflexivity.
  Qed.
End Coarse.

Lemma restore_In {T} {N : Num T} miss (s : series T) t v : In (t, v) (restore_missing miss s) ->
  exists v0, In (t, v0) s /\ v = if mem (date_of t) (map date_of miss) then n_nan else v0.
Proof.
  unfold restore_missing, mask_set. intro H. apply in_map_iff in H.
  destruct H as ([u w] & E & Hin). cbn [fst snd] in E.
  destruct (mem (date_of u) (map date_of miss)) eqn:M; injection E as <- <-; exists w; rewrite M; auto.
Qed.

Lemma cascade_coarse_exact e d0 amounts arg L draws pos out :
  (1 <= L <= 8)%nat -> Forall amount_ok amounts ->
  disagg_prec_cascade e (daily d0 amounts) arg false L 0 draws pos = Ok (Some out) ->
  map fst out = short_index d0 (length amounts) L /\
  exists boxes : list R,
    length boxes = (2 ^ L * length amounts)%nat /\ Forall (fun b => 0 <= b)%R boxes /\
    (forall i, (i < length amounts)%nat -> Rsum (chunk (2 ^ L) i boxes) = depth (nth i amounts NaN)) /\
    (forall i t v, (i < length amounts)%nat -> In (t, v) out -> t / us_day = d0 + Z.of_nat i ->
      match nth i amounts NaN with
      | Fin _ =>
          (forall j, (j < length boxes)%nat -> t <= box_start d0 L j < t + 5 * us_minute ->
             v = Fin (nth j boxes 0%R)) /\
          ((forall j, (j < length boxes)%nat -> ~ t <= box_start d0 L j < t + 5 * us_minute) -> v = Fin 0)
      | _ => v = NaN
      end) /\
    (forall i, (i < length amounts)%nat ->
      match nth i amounts NaN with
      | Fin r => exists vs, values_on (d0 + Z.of_nat i) out = map Fin vs /\ Rsum vs = r
      | _ => Forall (fun v => v = NaN) (values_on (d0 + Z.of_nat i) out)
      end).
Proof.
  intros HL HA H. assert (HL11 : (1 <= L <= 11)%nat) by lia.
  destruct (cascade_boxes_inv _ _ _ _ _ _ _ _ _ HL11 H) as (Hlen & boxes & Rf & E).
  rewrite Z.eqb_refl in E. cbv zeta in E. subst out.
  pose proof (refines_length _ _ _ Rf) as BL. rewrite map_length in BL.
  destruct (fill0_list _ HA) as [EF FF]. rewrite EF in Rf.
  destruct (refines_xr _ _ _ FF Rf) as (bs & -> & Fb & Hb). rewrite map_length in BL.
  assert (Hin : forall i, (i < length amounts)%nat -> nth_error amounts i = Some (nth i amounts NaN))
    by (intros; apply nth_error_nth'; assumption).
  assert (AOK : forall i, (i < length amounts)%nat -> amount_ok (nth i amounts NaN)).
  { intros i Hi. rewrite Forall_forall in HA. apply HA. eapply nth_error_In, Hin, Hi. }
  assert (Hm : forall i, nth i (map amountR amounts) 0%R = depth (nth i amounts NaN)).
  { intro i. change 0%R with (amountR NaN). rewrite map_nth. destruct (nth i amounts NaN); reflexivity. }
  destruct (length amounts) as [|n'] eqn:En; [lia|].
  pose proof (coarse_rows d0 n' L bs HL BL) as CR.
  set (rowsum := fun t => Rsum (map snd (filter (fun p => bin5 (fst p) =? t)
                   (combine (grid (d0 * us_day) (sub_step L) (2 ^ L * S n')) bs)))).
  change (resample (5 * us_minute) nansum
            (combine (grid (d0 * us_day) (sub_step L) (2 ^ L * S n')) (map Fin bs))
          = map (fun t => (t, Fin (rowsum t))) (short_index d0 (S n') L)) in CR.
  rewrite CR. clear CR.
  split.
  { change (index (restore_missing (missing_days (daily d0 amounts))
              (map (fun t => (t, Fin (rowsum t))) (short_index d0 (S n') L))) = short_index d0 (S n') L).
    rewrite restore_missing_index. unfold index. rewrite map_map. apply map_id. }
  exists bs. split; [exact BL|]. split; [exact Fb|]. split; [|split].
  - intros i Hi. rewrite Hb by (rewrite map_length; lia). apply Hm.
  - intros i t v Hi Hv Ht. apply restore_In in Hv. destruct Hv as (v0 & Hv0 & ->).
    pose proof (missing_date_mem d0 amounts i _ (Hin i Hi)) as M.
    assert (M' : mem (date_of t) (map date_of (missing_days (daily d0 amounts))) = n_isnan (nth i amounts NaN))
      by (unfold date_of at 1; rewrite Ht; exact M).
    rewrite M'. clear M'.
    apply in_map_iff in Hv0. destruct Hv0 as (u & Eu & Hu). injection Eu as -> <-.
    assert (Mt : t mod (5 * us_minute) = 0).
    { unfold short_index in Hu. apply grid_In in Hu. destruct Hu as (k & _ & ->).
      replace (d0 * us_day + Z.of_nat k * (5 * us_minute)) with ((d0 * 288 + Z.of_nat k) * (5 * us_minute))
        by (unfold us_day, us_minute; lia).
      apply Z.mod_mul. unfold us_minute; lia. }
    destruct (AOK i Hi) as [EN|(r & Er & Hr)]; [rewrite EN; reflexivity|]. rewrite Er.
    cbn [n_isnan Num_xr xisnan]. rewrite BL. unfold box_start. rewrite box_length_sub by lia. split.
    + intros j Hj Hr'. f_equal. exact (rowsum_one d0 n' L bs HL BL t j Mt Hj Hr').
    + intros Hn. f_equal. exact (rowsum_none d0 n' L bs HL BL t Mt Hn).
  - intros i Hi. rewrite (restored_general _ _ _ _ _ (Hin i Hi)).
    destruct (AOK i Hi) as [EN|(r & Er & Hr)].
    + rewrite EN. cbn [n_isnan Num_xr xisnan]. apply Forall_forall. intros v Hv.
      apply repeat_spec in Hv. exact Hv.
    + rewrite Er. cbn [n_isnan Num_xr xisnan].
      exists (map rowsum (filter (fun t => t / us_day =? d0 + Z.of_nat i) (short_index d0 (S n') L))).
      split.
      * unfold values_on. rewrite filter_map_comm, !map_map. reflexivity.
      * unfold rowsum. rewrite (coarse_day d0 n' L bs HL BL).
        destruct (sub_step_day L ltac:(lia)) as [Ed Es].
        rewrite (values_on_grid (2 ^ L) (sub_step L) (S n')) by (try assumption; lia).
        rewrite Hb by (rewrite map_length; lia). rewrite Hm, Er. reflexivity.
Qed.

(** levels beyond the allocated arrays, and level 0 *)
Section Rejected.
  Context {T : Type} {N : Num T}.

  Lemma levels_from_too_many arg draws hourly lvl : forall si l v s acc r,
    (allocated hourly lvl < l + si - 1)%nat -> (1 <= si)%nat ->
    levels_from (T := T) arg draws hourly lvl si l v s acc = Ok (Some r) -> False.
  Proof.
    induction si as [|si IH]; intros l v s acc r Hl Hs H; [lia|]. cbn [levels_from] in H.
    destruct (Nat.ltb_spec (allocated hourly lvl) l) as [|Ha]; [discriminate|].
    apply bind_Ok in H. destruct H as (cm & _ & H).
    apply bind_Ok in H. destruct H as (o & _ & H). destruct o as [[out s1]|]; [|discriminate].
    refine (IH (S l) out s1 (out :: acc) r _ _ H); lia.
  Qed.

  Lemma cascade_too_fine e s arg L shft draws pos out : (12 <= L)%nat ->
    disagg_prec_cascade (T := T) e s arg false L shft draws pos <> Ok (Some out).
  Proof.
    intros HL H. rewrite cascade_core in H. destruct (Nat.ltb _ _); [discriminate|].
    destruct (core _ _ _ _ _ _ _) as [[[lv o]|]|] eqn:C; try discriminate.
    unfold core in C. cbv zeta in C. cbn [n_levels] in C.
    apply bind_Ok in C. destruct C as (u & _ & C).
    apply bind_Ok in C. destruct C as (acc & E & C). destruct acc as [acc|]; [|discriminate].
    assert (A : allocated false L = 9%nat).
    { unfold allocated. destruct (Nat.eqb_spec L 10), (Nat.eqb_spec L 11); cbn; lia. }
    eapply levels_from_too_many; [| |exact E]; lia.
  Qed.

  Lemma cascade_level_zero e (s : series T) arg shft draws pos : (2 <= length s)%nat ->
    match arg with COne _ => True | CList l => l = [] | COther => False end ->
    disagg_prec_cascade e s arg false 0 shft draws pos = Err UnboundLocalError.
  Proof.
    intros Hs Ha. unfold disagg_prec_cascade, disagg_prec_cascade_full.
    destruct (Nat.ltb_spec (length s) 2) as [|_]; [lia|].
    destruct arg as [c|l|]; [reflexivity| |contradiction]. rewrite Ha. reflexivity.
  Qed.
End Rejected.

(** non-hourly results exist for every level from 1 to 11 *)
Section Total.
  Context {T : Type} {N : Num T}.
  Variable P : T -> Prop.
  Hypothesis P_branch : forall x a b, P x -> branch x a b -> P a /\ P b.
  Hypothesis P_dry : forall x, P x -> (x =? n0)%num = negb (n0 <? x)%num.
  Hypothesis centers_fine : forall k, (k < 7)%nat ->
    ((class_center k <? n0) || (n1 <? class_center k))%num = false.

  Lemma cascade_boxes_total e d0 amounts arg L shft draws pos :
    (1 <= L <= 11)%nat -> (2 <= length amounts)%nat -> Forall P (map fill0 amounts) ->
    stats_fine arg draws L ->
    exists r, disagg_prec_cascade_full e (daily d0 amounts) arg false L shft draws pos = Ok (Some r) /\
      cascade_steps (stats_of arg) draws L pos (map fill0 amounts) (cr_levels r).
  Proof.
    intros HL Ln F SF. unfold disagg_prec_cascade_full. rewrite daily_length.
    destruct (Nat.ltb_spec (length amounts) 2) as [?|_]; [lia|].
    assert (CO : check_options arg (n_levels false L) = Ok tt).
    { destruct arg as [c|l|]; cbn in SF |- *; [reflexivity| |contradiction].
      destruct SF as [-> _]. rewrite Nat.eqb_refl. reflexivity. }
    rewrite CO. cbn [bind]. rewrite zero_missing_values.
    assert (HA : (L <= allocated false L)%nat).
    { unfold allocated. destruct (Nat.eqb_spec L 10), (Nat.eqb_spec L 11); cbn; lia. }
    destruct (levels_from_steps P P_branch P_dry centers_fine arg draws false L L SF HA L 1
                (map fill0 amounts) (st0 pos) []
                ltac:(lia) ltac:(lia) F ltac:(rewrite map_length; lia) (st0_ok pos))
      as (arrays & E & CS & LA).
    change (n_levels false L) with L. rewrite E. cbn [bind]. rewrite app_nil_r in *.
    pose proof (levels_from_refines _ _ _ _ _ _ _ _ _ _ (st0_ok pos) E) as [[C _]|(boxes & rest & Er & Rf)];
      [lia|].
    rewrite Er. rewrite zero_missing_index. unfold index. rewrite daily_fst.
    destruct (length amounts) as [|n] eqn:En; [lia|].
    rewrite sub_level_index_daily by lia. cbn [bind].
    unfold mk_series.
    assert (HB : length boxes = (2 ^ L * S n)%nat).
    { apply refines_length in Rf. rewrite Rf, map_length, En. reflexivity. }
    rewrite grid_length, HB, Nat.eqb_refl. cbn [bind].
    eexists. split; [reflexivity|]. cbn [cr_levels].
    rewrite <- Er, rev_involutive. exact CS.
  Qed.
End Total.

(** ** arrays of all levels *)
Section Chain.
  Context {T : Type} {N : Num T}.
  Fixpoint chain (v : list T) (levels : list (list T)) : Prop :=
    match levels with
    | [] => True
    | w :: rest => splits v w /\ chain w rest
    end.

  Lemma levels_from_chain arg draws hourly lvl : forall si l v s acc acc',
    st_ok s -> levels_from (T := T) arg draws hourly lvl si l v s acc = Ok (Some acc') ->
    exists arrays, acc' = rev arrays ++ acc /\ length arrays = si /\ chain v arrays.
  Proof.
    induction si as [|si IH]; intros l v s acc acc' Hs H; cbn [levels_from] in H.
    - injection H as <-. exists []. repeat split.
    - destruct (Nat.ltb _ _); [discriminate|].
      apply bind_Ok in H. destruct H as (cm & _ & H).
      apply bind_Ok in H. destruct H as (r & L & H). destruct r as [[out s1]|]; [|discriminate].
      destruct (level_from_splits _ _ _ _ _ _ _ _ _ Hs L) as [S Hs1].
      destruct (IH _ _ _ _ _ Hs1 H) as (arrays & -> & La & C).
      exists (out :: arrays). cbn [rev length chain]. rewrite <- app_assoc.
      split; [reflexivity|]. split; [lia|]. split; assumption.
  Qed.
End Chain.

Lemma chain_xr rs levels : Forall (fun r => 0 <= r)%R rs -> chain (map Fin rs) levels ->
  exists ls, levels = map (map Fin) ls /\ halving rs ls /\ Forall (Forall (fun r => 0 <= r)%R) ls.
Proof.
  revert rs. induction levels as [|w rest IH]; intros rs F C.
  - exists []. repeat split. constructor.
  - destruct C as [S C]. destruct (splits_xr _ _ F S) as (ms & -> & Fm & Hm).
    pose proof (splits_length _ _ S) as SL. rewrite !map_length in SL.
    destruct (IH _ Fm C) as (ls & -> & Hh & Fl).
    exists (ms :: ls). split; [reflexivity|]. split; [|constructor; assumption].
    cbn [halving]. split; [|exact Hh]. split; [exact SL|exact Hm].
Qed.

Lemma halving_sums : forall ls rs k, halving rs ls -> (k < length ls)%nat ->
  length (nth k ls []) = (2 ^ S k * length rs)%nat /\
  forall i, (i < length rs)%nat -> Rsum (chunk (2 ^ S k) i (nth k ls [])) = nth i rs 0%R.
Proof.
  induction ls as [|w ls IH]; intros rs k H Hk; [cbn in Hk; lia|].
  destruct H as [[HL Hh] H]. destruct k as [|k].
  - cbn [nth]. change (2 ^ 1)%nat with 2%nat. split; [exact HL|]. intros i Hi.
    rewrite <- (Hh i Hi). unfold chunk.
    assert (E : skipn (2 * i) w = nth (2 * i) w 0%R :: nth (2 * i + 1) w 0%R :: skipn (2 * i + 2) w).
    { assert (G : forall (l : list R) m, (S m < length l)%nat ->
               skipn m l = nth m l 0%R :: nth (m + 1) l 0%R :: skipn (m + 2) l).
      { induction l as [|a l IHl]; intros [|m] Hm; cbn [length] in Hm; try lia.
        - destruct l; cbn [length] in Hm; [lia|]. reflexivity.
        - cbn [skipn nth Nat.add]. apply IHl. lia. }
      apply G. lia. }
    rewrite E. cbn [firstn]. unfold Rsum; cbn [fold_right]. lra.
  - cbn [length] in Hk. destruct (IH w k H ltac:(lia)) as [L1 S1]. cbn [nth].
    split.
    + rewrite L1, HL. cbn [Nat.pow]. lia.
    + intros i Hi. rewrite Nat.pow_succ_r', chunk_double, Rsum_app, !S1 by lia. apply Hh; assumption.
Qed.
