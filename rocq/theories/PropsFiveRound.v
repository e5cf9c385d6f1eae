(** Property C101: the 5-minute cascade in binary64 arithmetic. *)
From Coq Require Import ZArith List Bool Lia Reals Lra Floats FinFun.
From Verif Require Import Py Num Cal Series UtilModel SpecBase TimeProofs CascadeModel PrecipModel SpecCascade
  CascadeProofs CascadeSteps CascadeExact CascadeMore CascadeFive F64 CascadeFloat CascadeRound
  MasterRound SpecFiveRound FiveModel FiveRound CascadeWitness PropsCascade.
Import ListNotations.
Open Scope Z_scope.

(** the sum of pandas can be exchanged without changing what succeeds *)
Lemma with_nansum {T} {N : Num T} e s arg L shft draws pos :
  disagg_prec_cascade_with nansum e s arg L shft draws pos = disagg_prec_cascade e s arg false L shft draws pos.
Proof.
  unfold disagg_prec_cascade_with, disagg_prec_cascade, disagg_prec_cascade_full.
  destruct (Nat.ltb (length s) 2); [reflexivity|]. cbv zeta. destruct (check_options arg _) as [[]|]; [|reflexivity]. cbn [bind].
  destruct (levels_from _ _ _ _ _ _ _ _ _) as [[[|v acc]|]|]; try reflexivity. cbn [bind].
  destruct (sub_level_index _ _ _) as [idx|]; [|reflexivity]. cbn [bind].
  destruct (mk_series idx v) as [sn|]; reflexivity.
Qed.

Lemma with_inv {T} {N : Num T} tot e d0 amounts arg L shft draws pos out :
  (9 <= L <= 11)%nat ->
  disagg_prec_cascade_with tot e (daily d0 amounts) arg L shft draws pos = Ok (Some out) ->
  (2 <= length amounts)%nat /\
  exists boxes : list T,
    refines L (map fill0 amounts) boxes /\
    let sn := combine (grid (d0 * us_day) (sub_step L) (2 ^ L * length amounts)) boxes in
    let h := restore_missing (missing_days (daily d0 amounts)) (resample (5 * us_minute) tot sn) in
    out = if shft =? 0 then h else shift shft h.
Proof.
  intros HL H. unfold disagg_prec_cascade_with in H.
  destruct (Nat.ltb_spec (length (daily d0 amounts)) 2) as [?|Hlen]; [discriminate|].
  rewrite daily_length in Hlen. split; [exact Hlen|]. cbv zeta in H. cbn [n_levels] in H.
  apply bind_Ok in H. destruct H as (u & _ & C).
  apply bind_Ok in C. destruct C as (acc & E & C). destruct acc as [acc|]; [|discriminate].
  destruct (levels_from_refines _ _ _ _ _ _ _ _ _ _ (st0_ok pos) E)
    as [[E0 _]|(boxes & rest & -> & Rf)]; [lia|].
  apply bind_Ok in C. destruct C as (idx & I & C).
  apply bind_Ok in C. destruct C as (sn & M & C). injection C as <-.
  rewrite zero_missing_index in I. unfold index in I. rewrite daily_fst in I.
  rewrite zero_missing_values in Rf.
  exists boxes. split; [exact Rf|]. cbv zeta.
  destruct (length amounts) as [|n] eqn:En; [lia|].
  rewrite sub_level_index_daily in I by lia.
  match type of I with Ok ?g = Ok _ => assert (idx = g) as -> by congruence end.
  unfold mk_series in M. destruct (Nat.eqb _ _); [|discriminate].
  match type of M with Ok ?g = Ok _ => assert (sn = g) as -> by congruence end.
  reflexivity.
Qed.

Theorem C101_same_success (tot : list float -> float) e s arg L shft draws pos out :
  disagg_prec_cascade e s arg false L shft draws pos = Ok (Some out) ->
  exists out', disagg_prec_cascade_with tot e s arg L shft draws pos = Ok (Some out').
Proof.
  rewrite <- with_nansum. unfold disagg_prec_cascade_with.
  destruct (Nat.ltb (length s) 2); [discriminate|]. cbv zeta. destruct (check_options arg _) as [[]|]; [|discriminate]. cbn [bind].
  destruct (levels_from _ _ _ _ _ _ _ _ _) as [[[|v acc]|]|]; try discriminate. cbn [bind].
  destruct (sub_level_index _ _ _) as [idx|]; [|discriminate]. cbn [bind].
  destruct (mk_series idx v) as [sn|]; [|discriminate]. cbn [bind]. intros _. eexists. reflexivity.
Qed.
Print Assumptions C101_same_success.

Lemma Rsum_close {A} (f g : A -> R) c l : (0 <= c)%R -> (forall t, In t l -> Rabs (f t - g t) <= c * g t)%R ->
  (Rabs (Rsum (map f l) - Rsum (map g l)) <= c * Rsum (map g l))%R.
Proof.
  intros C H. unfold Rsum. induction l as [|t l IH]; cbn [map fold_right].
  - rewrite Rminus_0_r, Rabs_R0. lra.
  - specialize (IH (fun u Hu => H u (or_intror Hu))). specialize (H t (or_introl eq_refl)).
    apply Flocq.Core.Raux.Rabs_le_inv in IH, H. apply Rabs_le. lra.
Qed.

Theorem C101_five_minutes_up_to_rounding tot e d0 amounts arg L draws pos out :
  sums_within tot -> (9 <= L <= 11)%nat -> Forall famount_ok amounts ->
  disagg_prec_cascade_with tot e (daily d0 amounts) arg L 0 draws pos = Ok (Some out) ->
  map fst out = fivemin_index d0 (length amounts) /\
  forall i a, nth_error amounts i = Some a ->
    let vs := values_on (d0 + Z.of_nat i) out in
    length vs = 288%nat /\
    (PrimFloat.is_nan a = true -> vs = repeat PrimFloat.nan 288) /\
    (PrimFloat.is_nan a = false ->
       Forall (fun v => PrimFloat.is_finite v = true /\ (0 <=? v)%float = true) vs /\
       (Rabs (Rsum (map fval vs) - fval a) <= 2 / 10 ^ 14 * fval a + 1 / 10 ^ 300)%R /\
       ((a =? 0)%float = true -> Forall (fun v => (v =? 0)%float = true) vs)).
Proof.
  intros TT HL HA H. destruct (with_inv _ _ _ _ _ _ _ _ _ _ HL H) as (Hlen & boxes & Rf & E).
  rewrite Z.eqb_refl in E. cbv zeta in E. subst out. clear H.
  pose proof (refines_length _ _ _ Rf) as BL. rewrite map_length in BL.
  assert (FA : Forall fok (map fill0 amounts)).
  { rewrite Forall_map. eapply Forall_impl; [|exact HA]. exact fill0_f64. }
  destruct (refines_f64 L _ _ FA Rf) as [FB _].
  set (n := length amounts) in *.
  destruct n as [|n'] eqn:En; [lia|].
  rewrite (resample_grid _ d0 n' L) by (try exact HL; exact BL).
  set (sn := combine (grid (d0 * us_day) (sub_step L) (2 ^ L * S n')) boxes).
  set (bin := fun t => map snd (filter (fun p => bin5 (fst p) =? t) sn)).
  assert (CC : forall (f : Z -> float) (l : list Z), map (fun t => (t, f t)) l = combine l (map f l)).
  { intros f l. induction l as [|a l IH]; cbn; congruence. }
  change (map (fun t => (t, tot (map snd (filter (fun p => bin5 (fst p) =? t) sn)))) (fivemin_index d0 (S n')))
    with (map (fun t => (t, tot (bin t))) (fivemin_index d0 (S n'))).
  rewrite CC. set (sums := map (fun t => tot (bin t)) (fivemin_index d0 (S n'))).
  assert (LF : length (fivemin_index d0 (S n')) = (288 * S n')%nat) by apply grid_length.
  assert (LS : length sums = (288 * S n')%nat) by (unfold sums; rewrite map_length; exact LF).
  split.
  { change (index (restore_missing (missing_days (daily d0 amounts))
              (combine (fivemin_index d0 (S n')) sums)) = fivemin_index d0 (S n')).
    rewrite restore_missing_index. unfold index. apply map_fst_combine. congruence. }
  intros i a Hin vs.
  assert (Hi : (i < S n')%nat) by (rewrite <- En; apply nth_error_Some; congruence).
  assert (EV : values_on (d0 + Z.of_nat i) (combine (fivemin_index d0 (S n')) sums) = chunk 288 i sums).
  { unfold fivemin_index. apply (values_on_grid 288 (5 * us_minute) (S n')); (reflexivity || assumption). }
  assert (LC : length (chunk 288 i sums) = 288%nat) by (apply chunk_length with (n := S n'); assumption).
  assert (EVS : vs = if PrimFloat.is_nan a then repeat PrimFloat.nan 288 else chunk 288 i sums).
  { unfold vs. rewrite (restored_general _ _ _ _ _ Hin), EV, LC. change (n_isnan a) with (f64_isnan a). rewrite isnan_spec. reflexivity. }
  clearbody vs. subst vs. destruct (PrimFloat.is_nan a) eqn:Na.
  { split; [apply repeat_length|]. split; [reflexivity|discriminate]. }
  split; [exact LC|]. split; [discriminate|]. intros _.
  (* the day *)
  set (g := grid ((d0 + Z.of_nat i) * us_day) (5 * us_minute) 288).
  assert (EG : chunk 288 i sums = map (fun t => tot (bin t)) g).
  { unfold sums. rewrite chunk_map. f_equal. unfold fivemin_index. rewrite grid_skip_first by lia. unfold g. f_equal.
    unfold us_day, us_minute. lia. }
  rewrite EG.
  assert (BOK : forall t, (length (bin t) <= 8)%nat /\ Forall moderate (bin t)).
  { intro t. split; [apply bin_small; assumption|]. apply Forall_forall. intros x Hx. apply moderate_fok.
    unfold bin in Hx. apply in_map_iff in Hx. destruct Hx as ([u y] & <- & Hx). apply filter_In in Hx. destruct Hx as [Hx _].
    unfold sn in Hx. apply in_combine_r in Hx. rewrite Forall_forall in FB. apply FB, Hx. }
  assert (TB : forall t, PrimFloat.is_finite (tot (bin t)) = true /\ (0 <= fval (tot (bin t)))%R /\
     (Rabs (fval (tot (bin t)) - fsum (bin t)) <= 1 / 10 ^ 14 * fsum (bin t))%R).
  { intro t. destruct (BOK t) as [B1 B2]. exact (TT (bin t) B1 B2). }
  assert (SB : Rsum (map (fun t => fsum (bin t)) g) = fsum (chunk (2 ^ L) i boxes)).
  { assert (E1 : forall t, fsum (bin t) = Rsum (map snd (filter (fun p => bin5 (fst p) =? t)
        (combine (grid (d0 * us_day) (sub_step L) (2 ^ L * S n')) (map fval boxes))))).
    { intro t. unfold fsum, bin, sn. rewrite combine_map_r, filter_map_comm, !map_map. reflexivity. }
    rewrite (map_ext _ _ E1), Rsum_bins by (apply grid_NoDup; reflexivity).
    rewrite (filter_ext _ (fun p => fst p / us_day =? d0 + Z.of_nat i)) by (intro p; apply bins_of_day).
    destruct (sub_step_day L ltac:(lia)) as [Ed Es].
    match goal with |- Rsum (map snd (filter _ ?s)) = _ => change (Rsum (values_on (d0 + Z.of_nat i) s) = fsum (chunk (2 ^ L) i boxes)) end.
    rewrite (values_on_grid (2 ^ L) (sub_step L) (S n')) by (try rewrite map_length; try assumption; lia).
    rewrite chunk_map. reflexivity. }
  assert (AD : fval (nth i (map fill0 amounts) n_nan) = fval a).
  { assert (F0 : fill0 a = a).
    { unfold fill0. change (n_isnan a) with (f64_isnan a). rewrite isnan_spec, Na. reflexivity. }
    rewrite (nth_indep _ n_nan (fill0 n_nan)) by (rewrite map_length; fold n; lia).
    rewrite map_nth, (nth_error_nth _ _ _ Hin), F0. reflexivity. }
  assert (A0 : (0 <= fval a)%R).
  { rewrite <- AD. rewrite Forall_forall in FA. apply (FA (nth i (map fill0 amounts) n_nan)), nth_In. rewrite map_length. fold n. lia. }
  assert (RE := refines_err L _ _ FA Rf i n_nan ltac:(rewrite map_length; fold n; lia)). rewrite AD in RE.
  destruct (lvl_bound L ltac:(lia)) as [B1 B2]. destruct (lvl_err_nn L) as [B3 B4].
  set (e1 := fst (lvl_err L)) in *. set (e2 := snd (lvl_err L)) in *. set (D := fsum (chunk (2 ^ L) i boxes)) in *.
  assert (RS := Rsum_close (fun t => fval (tot (bin t))) (fun t => fsum (bin t)) (1 / 10 ^ 14) g ltac:(lra) (fun t _ => proj2 (proj2 (TB t)))).
  rewrite SB in RS. rewrite <- (map_map (fun t => tot (bin t)) fval) in RS.
  pose proof eta64_pos as EP. pose proof eta64_small' as ES.
  assert (X1 : (e1 * fval a <= 50 * u64 * fval a)%R) by (apply Rmult_le_compat_r; assumption).
  assert (X2 : (e2 * eta64 <= 5000 * eta64)%R) by (apply Rmult_le_compat_r; lra).
  apply Flocq.Core.Raux.Rabs_le_inv in RE, RS.
  split; [|split].
  - apply Forall_forall. intros v Hv. apply in_map_iff in Hv. destruct Hv as (t & <- & _). destruct (TB t) as (T1 & T2 & _).
    split; [exact T1|]. apply ffin_spec in T1. destruct (fleb_correct 0%float (tot (bin t)) ffin_zero T1) as [_|K]; [reflexivity|exfalso; apply K; exact T2].
  - apply Rabs_le. unfold u64 in *. lra.
  - intro Za. assert (A2 : fval a = 0%R).
    { assert (Fa : ffin a).
      { rewrite Forall_forall in FA. assert (I : In (fill0 a) (map fill0 amounts)) by (apply in_map; eapply nth_error_In; exact Hin).
        specialize (FA _ I). unfold fill0 in FA. change (n_isnan a) with (f64_isnan a) in FA. rewrite isnan_spec, Na in FA. apply FA. }
      destruct (feqb_correct a 0%float Fa ffin_zero) as [K|]; [exact K|discriminate]. }
    destruct (refines_f64 L _ _ FA Rf) as [_ ZB]. specialize (ZB i n_nan ltac:(rewrite map_length; fold n; lia) ltac:(rewrite AD; exact A2)).
    apply Forall_forall. intros v Hv. apply in_map_iff in Hv. destruct Hv as (t & <- & Ht). destruct (TB t) as (T1 & T2 & T3).
    assert (Z0 : fsum (bin t) = 0%R).
    { assert (D0 : D = 0%R).
      { unfold D, fsum. assert (AL : Forall (fun x => x = 0%R) (map fval (chunk (2 ^ L) i boxes))).
        { rewrite Forall_map, Forall_forall. intros x Hx. apply (In_nth _ _ n_nan) in Hx. destruct Hx as (j & Hj & <-).
          assert (Hj' : (j < 2 ^ L)%nat) by (unfold chunk in Hj; rewrite firstn_length in Hj; lia).
          rewrite nth_chunk by exact Hj'. apply ZB. lia. }
        unfold Rsum. induction AL as [|x l -> _ IH]; [reflexivity|]. cbn [fold_right]. lra. }
      rewrite D0 in SB. clear - SB Ht BOK.
      assert (N : forall u, (0 <= fsum (bin u))%R).
      { intro u. apply (fsum_cap (bin u)). apply Forall_moderate. apply BOK. }
      revert SB. unfold Rsum. induction g as [|u g IH]; [destruct Ht|]. cbn [map fold_right]. intro SB.
      assert (G0 : (0 <= fold_right Rplus 0 (map (fun t => fsum (bin t)) g))%R).
      { clear - N. induction g as [|u g IH]; cbn [map fold_right]; [lra|]. pose proof (N u). lra. }
      pose proof (N u). destruct Ht as [->|Ht]; [lra|]. apply IH; [exact Ht|lra]. }
    rewrite Z0 in T3. apply Flocq.Core.Raux.Rabs_le_inv in T3. apply ffin_spec in T1.
    destruct (feqb_correct (tot (bin t)) 0%float T1 ffin_zero) as [_|K]; [reflexivity|exfalso; apply K; change (fval 0%float) with 0%R; lra].
Qed.
Print Assumptions C101_five_minutes_up_to_rounding.

(** both plain and compensated addition (pandas since 1.2) are within the bound *)
Theorem C101_plain_sum : sums_within nansum.
Proof. exact nansum_within. Qed.
Print Assumptions C101_plain_sum.
Theorem C101_compensated_sum : sums_within kahan.
Proof. exact kahan_within. Qed.
Print Assumptions C101_compensated_sum.

Example C101_met : Forall famount_ok ex_famounts /\
  exists out, disagg_prec_cascade_with kahan modern (daily 0 ex_famounts) (COne ex_eighths) 9 0 (fun _ => umax) 0 = Ok (Some out).
Proof.
  split; [exact ex_famounts_ok|].
  destruct (C08_never_fails_five_minutes modern 0 ex_famounts (COne ex_eighths) 9 0 (fun _ => umax) 0) as (r & E & _);
    [lia|cbn; lia|apply C08_met|apply C08_met|].
  apply (C101_same_success kahan modern (daily 0 ex_famounts) (COne ex_eighths) 9 0 (fun _ => umax) 0 (cr_out r)).
  unfold disagg_prec_cascade. rewrite E. reflexivity.
Qed.
