(** 5-minute output of the cascade (hourly=False), levels 9, 10, 11. *)
From Coq Require Import ZArith List Bool Lia Reals Lra FinFun.
From Verif Require Import Py Num Cal Series UtilModel SpecBase TimeProofs CascadeModel PrecipModel
  SpecCascade CascadeProofs CascadeSteps CascadeExact CascadeMore.
Import ListNotations.
Open Scope Z_scope.

Definition sub_step (L : nat) : Z := 42187500 * 2 ^ (11 - Z.of_nat L).

Lemma sub_step_day L : (L <= 11)%nat -> Z.of_nat (2 ^ L) * sub_step L = us_day /\ 42187500 <= sub_step L.
Proof.
  intro H. unfold sub_step. do 12 (destruct L as [|L]; [split; vm_compute; congruence|]). lia.
Qed.
Lemma sub_step_fine L : (9 <= L <= 11)%nat -> sub_step L <= 300000000.
Proof.
  intro H. do 12 (destruct L as [|L]; [try lia; vm_compute; congruence|]). lia.
Qed.

Lemma sub_level_index_daily e d0 n L : (L <= 11)%nat ->
  sub_level_index e (daily_index d0 (S n)) L
  = Ok (grid (d0 * us_day) (sub_step L) (2 ^ L * S n)).
Proof.
  intro HL. destruct (sub_step_day L HL) as [Ed Es].
  unfold sub_level_index, daily_index.
  rewrite idx_min_grid, idx_max_grid by (unfold us_day; lia). fold (sub_step L).
  assert (E : replace_hms (d0 * us_day + Z.of_nat n * us_day) 23 59 59
              = d0 * us_day + Z.of_nat (S n) * us_day - 1000000).
  { unfold replace_hms.
    replace (d0 * us_day + Z.of_nat n * us_day) with (midnight (d0 + Z.of_nat n))
      by (unfold midnight; lia).
    rewrite date_midnight.
    assert (tod (midnight (d0 + Z.of_nat n)) = 0) as ->.
    { unfold tod, midnight, us_day. apply Z.mod_mul. lia. }
    rewrite Zmod_0_l. unfold us_day, us_hour, us_minute, us_second. lia. }
  rewrite E. clear E.
  rewrite date_range_grid by (unfold us_day in *; lia).
  replace (Z.to_nat _) with (2 ^ L * S n)%nat.
  2:{ set (f := sub_step L) in *.
      replace (d0 * us_day + Z.of_nat (S n) * us_day - 1000000 - d0 * us_day)
        with ((Z.of_nat (2 ^ L * S n) - 1) * f + (f - 1000000)).
      2:{ rewrite Nat2Z.inj_mul. rewrite <- Ed. ring. }
      rewrite Z.div_add_l by lia. rewrite (Z.div_small (f - 1000000)) by lia. lia. }
  rewrite !grid_length.
  assert (Lt : Nat.ltb (S n * 2 ^ L) (2 ^ L * S n) = false) by (apply Nat.ltb_ge; lia).
  rewrite Lt. reflexivity.
Qed.

Definition bin5 (t : Z) : Z := t / (5 * us_minute) * (5 * us_minute).

Lemma resample_grid {T} {N : Num T} (agg : list T -> T) d0 n L (vals : list T) :
  (9 <= L <= 11)%nat -> length vals = (2 ^ L * S n)%nat ->
  let s := combine (grid (d0 * us_day) (sub_step L) (2 ^ L * S n)) vals in
  resample (5 * us_minute) agg s
  = map (fun t => (t, agg (map snd (filter (fun p => bin5 (fst p) =? t) s))))
        (fivemin_index d0 (S n)).
Proof.
  intros HL Hv s. destruct (sub_step_day L ltac:(lia)) as [Ed Es]. pose proof (sub_step_fine L HL) as Ef.
  assert (P2 : (1 <= 2 ^ L)%nat) by (pose proof (Nat.pow_nonzero 2 L); lia).
  destruct (2 ^ L * S n)%nat as [|k] eqn:Ek; [lia|].
  unfold resample, index. fold bin5.
  assert (Ei : map fst s = grid (d0 * us_day) (sub_step L) (S k)).
  { unfold s. apply map_fst_combine. rewrite grid_length. lia. }
  rewrite Ei, idx_min_grid, idx_max_grid by lia.
  set (f := sub_step L) in *.
  assert (A : bin5 (d0 * us_day) = d0 * us_day).
  { unfold bin5. replace (d0 * us_day) with (d0 * 288 * (5 * us_minute)) by (unfold us_day, us_minute; lia).
    rewrite Z.div_mul by (unfold us_minute; lia). reflexivity. }
  assert (B : bin5 (d0 * us_day + Z.of_nat k * f) = d0 * us_day + (288 * Z.of_nat (S n) - 1) * (5 * us_minute)).
  { unfold bin5.
    assert (Q : d0 * us_day + Z.of_nat k * f
            = (d0 * 288 + 288 * Z.of_nat (S n) - 1) * (5 * us_minute) + (5 * us_minute - f)).
    { assert (Z.of_nat k = Z.of_nat (2 ^ L) * Z.of_nat (S n) - 1) as -> by lia.
      rewrite Z.mul_sub_distr_r.
      replace (Z.of_nat (2 ^ L) * Z.of_nat (S n) * f) with (Z.of_nat (2 ^ L) * f * Z.of_nat (S n)) by ring.
      rewrite Ed. unfold us_day, us_minute. lia. }
    rewrite Q, Z.div_add_l by (unfold us_minute; lia).
    rewrite Z.div_small by (unfold us_minute; lia). unfold us_day, us_minute. lia. }
  fold (bin5 (d0 * us_day)). fold (bin5 (d0 * us_day + Z.of_nat k * f)).
  rewrite A, B. f_equal.
  unfold fivemin_index. rewrite date_range_grid by (unfold us_minute; lia). f_equal.
  replace (d0 * us_day + (288 * Z.of_nat (S n) - 1) * (5 * us_minute) - d0 * us_day)
    with ((288 * Z.of_nat (S n) - 1) * (5 * us_minute)) by lia.
  rewrite Z.div_mul by (unfold us_minute; lia). lia.
Qed.

(** ** sums over bins = sum over the day *)
Lemma Rsum_bins (bin : Z -> Z) (s : list (Z * R)) : forall ts, NoDup ts ->
  Rsum (map (fun t => Rsum (map snd (filter (fun p => bin (fst p) =? t) s))) ts)
  = Rsum (map snd (filter (fun p => mem (bin (fst p)) ts) s)).
Proof.
  intros ts ND. induction s as [|[t x] s IH].
  - cbn [filter map]. induction ts as [|a ts IH]; [reflexivity|].
    inversion ND; subst. cbn [map]. change (Rsum (?y :: ?l)) with (y + Rsum l)%R.
    rewrite IH by assumption. cbn. lra.
  - cbn [filter fst].
    assert (G : Rsum (map (fun u => Rsum (map snd (if bin t =? u then (t, x) :: filter (fun p => bin (fst p) =? u) s
                                       else filter (fun p => bin (fst p) =? u) s))) ts)
            = ((if mem (bin t) ts then x else 0)
              + Rsum (map (fun u => Rsum (map snd (filter (fun p => bin (fst p) =? u) s))) ts))%R).
    { clear IH. induction ts as [|a ts IH]; [cbn; lra|].
      inversion ND as [|? ? Na ND']; subst. cbn [map].
      change (Rsum (?y :: ?l)) with (y + Rsum l)%R. rewrite IH by assumption.
      cbn [mem existsb]. fold (mem (bin t) ts).
      destruct (Z.eqb_spec (bin t) a) as [E|E]; cbn [orb].
      - subst a. assert (M : mem (bin t) ts = false).
        { apply not_true_iff_false. rewrite mem_In. exact Na. }
        rewrite M. cbn [map snd]. change (Rsum (?y :: ?l)) with (y + Rsum l)%R. lra.
      - lra. }
    rewrite G, IH. destruct (mem (bin t) ts); cbn [map snd].
    + reflexivity.
    + lra.
Qed.

Lemma nansum_Fin l : nansum (map Fin l) = Fin (Rsum l).
Proof.
  unfold nansum, valid.
  assert (E : filter (fun x => negb (n_isnan x)) (map Fin l) = map Fin l).
  { induction l as [|x l IH]; cbn; [reflexivity|]. f_equal. exact IH. }
  rewrite E.
  assert (G : forall l a, fold_left n_add (map Fin l) (Fin a) = Fin (a + Rsum l)).
  { induction l0 as [|x l0 IH]; intro a; cbn [map fold_left].
    - f_equal. unfold Rsum; cbn. lra.
    - rewrite xadd_Fin, IH. f_equal. unfold Rsum; cbn [fold_right]. lra. }
  rewrite n0_xr, G. f_equal. lra.
Qed.

Lemma combine_map_r {A B C} (f : B -> C) (a : list A) (b : list B) :
  combine a (map f b) = map (fun p => (fst p, f (snd p))) (combine a b).
Proof.
  revert b; induction a as [|x a IH]; intros [|y b]; cbn; try reflexivity. f_equal. apply IH.
Qed.

Lemma filter_map_comm {A B} (f : A -> B) (p : B -> bool) l :
  filter p (map f l) = map f (filter (fun x => p (f x)) l).
Proof.
  induction l as [|x l IH]; [reflexivity|]. cbn. destruct (p (f x)); cbn; [f_equal|]; exact IH.
Qed.

Lemma grid_NoDup t0 st n : 0 < st -> NoDup (grid t0 st n).
Proof.
  intro H. unfold grid. apply FinFun.Injective_map_NoDup; [|apply seq_NoDup].
  intros i j E. nia.
Qed.

Lemma grid_skip_first t0 st k i n : (k * i + k <= n)%nat ->
  chunk k i (grid t0 st n) = grid (t0 + Z.of_nat (k * i) * st) st k.
Proof.
  intro H. unfold chunk. replace n with (k * i + (k + (n - k * i - k)))%nat by lia.
  rewrite grid_app, skipn_app, grid_length, Nat.sub_diag.
  rewrite skipn_all2 by (rewrite grid_length; lia). cbn [skipn app].
  rewrite grid_app, firstn_app, grid_length, Nat.sub_diag, firstn_all2 by (rewrite grid_length; lia).
  cbn [firstn]. apply app_nil_r.
Qed.

(** the 288 bins of a day are the bins of exactly that day *)
Lemma bins_of_day d t : mem (bin5 t) (grid (d * us_day) (5 * us_minute) 288) = (t / us_day =? d).
Proof.
  apply eq_true_iff_eq. rewrite mem_In, grid_In, Z.eqb_eq.
  unfold bin5, us_day, us_minute. split.
  - intros (i & Hi & E).
    pose proof (Z.div_mod t (5 * 60000000) ltac:(lia)).
    pose proof (Z.mod_pos_bound t (5 * 60000000) ltac:(lia)).
    symmetry. apply Z.div_unique with (r := t - 86400000000 * d); lia.
  - intro E. pose proof (Z.div_mod t 86400000000 ltac:(lia)).
    pose proof (Z.mod_pos_bound t 86400000000 ltac:(lia)). rewrite E in H.
    exists (Z.to_nat (t mod 86400000000 / (5 * 60000000))). 
    assert (0 <= t mod 86400000000 / (5 * 60000000) < 288).
    { split; [apply Z.div_pos; lia|apply Z.div_lt_upper_bound; lia]. }
    split; [lia|]. rewrite Z2Nat.id by lia.
    rewrite H at 1.
    replace (86400000000 * d + t mod 86400000000)
      with (t mod 86400000000 + (288 * d) * (5 * 60000000)) by lia.
    rewrite Z.div_add by lia. lia.
Qed.

(** what a returned 5-minute result looks like *)
Lemma cascade_five_inv {T} {N : Num T} e d0 amounts arg L shft draws pos out :
  (9 <= L <= 11)%nat ->
  disagg_prec_cascade e (daily d0 amounts) arg false L shft draws pos = Ok (Some out) ->
  (2 <= length amounts)%nat /\
  exists boxes : list T,
    refines L (map fill0 amounts) boxes /\
    let sn := combine (grid (d0 * us_day) (sub_step L) (2 ^ L * length amounts)) boxes in
    let h := restore_missing (missing_days (daily d0 amounts)) (resample (5 * us_minute) nansum sn) in
    out = if shft =? 0 then h else shift shft h.
Proof.
  intros HL H. rewrite cascade_core in H.
  destruct (Nat.ltb_spec (length (daily d0 amounts)) 2) as [?|Hlen]; [discriminate|].
  rewrite daily_length in Hlen. split; [exact Hlen|].
  destruct (core _ _ _ _ _ _ _) as [[[lv o]|]|] eqn:C; try discriminate.
  cbv zeta in H. injection H as <-.
  unfold core in C. cbv zeta in C. cbn [n_levels] in C.
  apply bind_Ok in C. destruct C as (u & _ & C).
  apply bind_Ok in C. destruct C as (acc & E & C). destruct acc as [acc|]; [|discriminate].
  destruct (levels_from_refines _ _ _ _ _ _ _ _ _ _ (st0_ok pos) E)
    as [[E0 _]|(boxes & rest & -> & Rf)]; [lia|].
  apply bind_Ok in C. destruct C as (o2 & C & C2). injection C2 as <- <-.
  apply bind_Ok in C. destruct C as (idx & I & C).
  apply bind_Ok in C. destruct C as (sn & M & C). injection C as <-.
  rewrite zero_missing_index in I. unfold index in I. rewrite daily_fst in I.
  rewrite zero_missing_values in Rf.
  exists boxes. split; [exact Rf|]. cbv zeta.
  destruct (length amounts) as [|n] eqn:En; [lia|].
  rewrite sub_level_index_daily in I by lia.
  match type of I with Ok ?g = Ok _ => assert (idx = g) as -> by congruence end.
  unfold mk_series in M. destruct (Nat.eqb _ _); [|discriminate].
  match type of M with Ok ?g = Ok _ => assert (sn = g) as -> by congruence end.
  reflexivity.
Qed.

Lemma cascade_five_exact e d0 amounts arg L draws pos out :
  (9 <= L <= 11)%nat -> Forall amount_ok amounts ->
  disagg_prec_cascade e (daily d0 amounts) arg false L 0 draws pos = Ok (Some out) ->
  map fst out = fivemin_index d0 (length amounts) /\
  forall i, (i < length amounts)%nat ->
    match nth i amounts NaN with
    | Fin r => exists vs, values_on (d0 + Z.of_nat i) out = map Fin vs /\ length vs = 288%nat /\
               Forall (fun v => 0 <= v)%R vs /\ Rsum vs = r
    | _ => values_on (d0 + Z.of_nat i) out = repeat NaN 288
    end.
Proof.
  intros HL HA H. destruct (cascade_five_inv _ _ _ _ _ _ _ _ _ HL H) as (Hlen & boxes & Rf & E).
  rewrite Z.eqb_refl in E. cbv zeta in E. subst out.
  pose proof (refines_length _ _ _ Rf) as BL. rewrite map_length in BL.
  destruct (fill0_list _ HA) as [EF FF]. rewrite EF in Rf.
  destruct (refines_xr _ _ _ FF Rf) as (bs & -> & Fb & Hb). rewrite map_length in BL.
  set (n := length amounts) in *.
  destruct n as [|n'] eqn:En; [lia|].
  rewrite (resample_grid _ d0 n' L) by (try exact HL; rewrite map_length; exact BL).
  set (sn := combine (grid (d0 * us_day) (sub_step L) (2 ^ L * S n')) bs).
  set (sums := map (fun t => Rsum (map snd (filter (fun p => bin5 (fst p) =? t) sn))) (fivemin_index d0 (S n'))).
  assert (ER : map (fun t => (t, nansum (map snd (filter (fun p => bin5 (fst p) =? t)
                 (combine (grid (d0 * us_day) (sub_step L) (2 ^ L * S n')) (map Fin bs)))))) (fivemin_index d0 (S n'))
               = combine (fivemin_index d0 (S n')) (map Fin sums)).
  { unfold sums. rewrite map_map. rewrite (combine_map_r _ (fivemin_index d0 (S n'))).
    assert (CC : forall (l : list Z), combine l l = map (fun t => (t, t)) l).
    { induction l as [|a l IH]; cbn; congruence. }
    rewrite CC, map_map. apply map_ext. intro t. cbn [fst snd]. f_equal.
    rewrite combine_map_r. fold sn. rewrite filter_map_comm, map_map. cbn [fst snd].
    rewrite <- (map_map snd Fin). apply nansum_Fin. }
  rewrite ER.
  assert (LF : length (fivemin_index d0 (S n')) = (288 * S n')%nat) by apply grid_length.
  assert (LS : length (map Fin sums) = (288 * S n')%nat).
  { unfold sums. rewrite !map_length. exact LF. }
  split.
  { change (index (restore_missing (missing_days (daily d0 amounts))
              (combine (fivemin_index d0 (S n')) (map Fin sums))) = fivemin_index d0 (S n')).
    rewrite restore_missing_index. unfold index. apply map_fst_combine. congruence. }
  intros i Hi.
  assert (Hin : nth_error amounts i = Some (nth i amounts NaN)).
  { apply nth_error_nth'. unfold n in En. lia. }
  rewrite (restored_general _ _ _ _ _ Hin).
  assert (EV : values_on (d0 + Z.of_nat i) (combine (fivemin_index d0 (S n')) (map Fin sums))
               = map Fin (chunk 288 i sums)).
  { unfold fivemin_index. rewrite (values_on_grid 288 (5 * us_minute) (S n')) by (try reflexivity; assumption).
    apply chunk_map. }
  rewrite EV, map_length.
  assert (LC : length (chunk 288 i sums) = 288%nat).
  { apply chunk_length with (n := S n'); [|assumption]. rewrite <- LS, map_length. reflexivity. }
  assert (AOK : amount_ok (nth i amounts NaN)).
  { rewrite Forall_forall in HA. apply HA. eapply nth_error_In; exact Hin. }
  destruct AOK as [->|(r & Er & Hr)].
  { cbn [n_isnan Num_xr xisnan]. rewrite LC. reflexivity. }
  rewrite Er. cbn [n_isnan Num_xr xisnan].
  exists (chunk 288 i sums). split; [reflexivity|]. split; [exact LC|]. split.
  - apply Forall_chunk. unfold sums. rewrite Forall_map, Forall_forall. intros t _.
    apply Rsum_nonneg. rewrite Forall_map, Forall_forall. intros [u x] Hx.
    apply filter_In in Hx. destruct Hx as [Hx _]. apply in_combine_r in Hx.
    rewrite Forall_forall in Fb. apply Fb, Hx.
  - unfold sums. rewrite chunk_map. unfold fivemin_index.
    rewrite grid_skip_first by lia.
    replace (d0 * us_day + Z.of_nat (288 * i) * (5 * us_minute)) with ((d0 + Z.of_nat i) * us_day)
      by (unfold us_day, us_minute; lia).
    rewrite Rsum_bins by (apply grid_NoDup; reflexivity).
    rewrite (filter_ext _ (fun p => fst p / us_day =? d0 + Z.of_nat i))
      by (intro p; apply bins_of_day).
    change (Rsum (values_on (d0 + Z.of_nat i) sn) = r).
    unfold sn. destruct (sub_step_day L ltac:(lia)) as [Ed Es].
    rewrite (values_on_grid (2 ^ L) (sub_step L) (S n')) by (try assumption; lia).
    rewrite Hb by (rewrite map_length; unfold n in En; lia).
    change 0%R with (amountR NaN). rewrite map_nth, Er. reflexivity.
Qed.

Section Total.
  Context {T : Type} {N : Num T}.
  Variable P : T -> Prop.
  Hypothesis P_branch : forall x a b, P x -> branch x a b -> P a /\ P b.
  Hypothesis P_dry : forall x, P x -> (x =? n0)%num = negb (n0 <? x)%num.
  Hypothesis centers_fine : forall k, (k < 7)%nat ->
    ((class_center k <? n0) || (n1 <? class_center k))%num = false.

  Lemma cascade_five_total e d0 amounts arg L shft draws pos :
    (9 <= L <= 11)%nat -> (2 <= length amounts)%nat -> Forall P (map fill0 amounts) ->
    stats_fine arg draws L ->
    exists r, disagg_prec_cascade_full e (daily d0 amounts) arg false L shft draws pos = Ok (Some r) /\
      cascade_steps (stats_of arg) draws L pos (map fill0 amounts) (cr_levels r).
  Proof.
    intros HL Ln F SF. unfold disagg_prec_cascade_full. rewrite daily_length.
    destruct (Nat.ltb_spec (length amounts) 2) as [?|_]; [lia|].
    assert (CO : check_options arg (n_levels false L) = Ok tt).
    { destruct arg as [c|l|]; cbn in SF |- *; [reflexivity| |contradiction].
      destruct SF as [-> _]. rewrite Nat.eqb_refl. reflexivity. }
    rewrite CO. cbn [bind]. rewrite zero_missing_values.
    assert (HA : (L <= allocated false L)%nat).
    { unfold allocated. destruct (Nat.eqb_spec L 10), (Nat.eqb_spec L 11); cbn; lia. }
    destruct (levels_from_steps P P_branch P_dry centers_fine arg draws false L L SF HA L 1
                (map fill0 amounts) (st0 pos) []
                ltac:(lia) ltac:(lia) F ltac:(rewrite map_length; lia) (st0_ok pos))
      as (arrays & E & CS & LA).
    change (n_levels false L) with L. rewrite E. cbn [bind]. rewrite app_nil_r in *.
    pose proof (levels_from_refines _ _ _ _ _ _ _ _ _ _ (st0_ok pos) E) as [[C _]|(boxes & rest & Er & Rf)];
      [lia|].
    rewrite Er. rewrite zero_missing_index. unfold index. rewrite daily_fst.
    destruct (length amounts) as [|n] eqn:En; [lia|].
    rewrite sub_level_index_daily by lia. cbn [bind].
    unfold mk_series.
    assert (HB : length boxes = (2 ^ L * S n)%nat).
    { apply refines_length in Rf. rewrite Rf, map_length, En. reflexivity. }
    rewrite grid_length, HB, Nat.eqb_refl. cbn [bind].
    eexists. split; [reflexivity|]. cbn [cr_levels].
    rewrite <- Er, rev_involutive. exact CS.
  Qed.
End Total.
