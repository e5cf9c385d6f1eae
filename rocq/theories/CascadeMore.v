(** Instances of the step refinement, shift, missing days, rejected arguments, 5-minute output. *)
From Coq Require Import ZArith List Bool Lia Reals Lra Floats.
From Verif Require Import Py Num Cal Series UtilModel SpecBase TimeProofs CascadeModel PrecipModel
  SpecCascade CascadeProofs CascadeSteps CascadeExact F64 CascadeFloat.
Import ListNotations.
Open Scope Z_scope.

(** ** hypotheses of CascadeSteps at the two number types *)
Definition nnR (x : xr) : Prop := exists r, x = Fin r /\ (0 <= r)%R.

Lemma nnR_branch x a b : nnR x -> branch x a b -> nnR a /\ nnR b.
Proof.
  intros (r & -> & Hr) B. destruct (branch_xr _ _ _ Hr B) as (ra & rb & -> & -> & Ha & Hb & _).
  split; eexists; eauto.
Qed.
Lemma nnR_dry x : nnR x -> (x =? n0)%num = negb (n0 <? x)%num.
Proof.
  intros (r & -> & Hr). rewrite n0_xr, xeqb_Fin, xltb_Fin.
  destruct (Reqb_spec r 0), (Rltb_spec 0 r); cbn; try reflexivity; lra.
Qed.
Lemma centers_fine_xr k : (k < 7)%nat ->
  ((class_center k <? n0) || (n1 <? class_center k) : bool)%num = false :> bool.
Proof.
  intro Hk. rewrite (class_center_xr k Hk), n0_xr, n1_xr, !xltb_Fin.
  pose proof (ccR_range k). destruct (Rltb_spec (ccR k) 0), (Rltb_spec 1 (ccR k)); cbn; try reflexivity; lra.
Qed.

Lemma fnn_branch x a b : fnn x -> branch x a b -> fnn a /\ fnn b.
Proof.
  intros Hx B. assert (Z0 : fnn n0) by (split; [exact ffin_zero|rewrite fval_zero; lra]).
  inversion B as [H E1 E2|H E1 E2|H E1 E2|k H Hk E1 E2]; subst; auto.
  destruct (center_unit k Hk) as ((F1 & U1) & (F2 & U2)).
  split; [apply (fmul_unit _ x F1 U1 Hx)|apply (fmul_unit _ x F2 U2 Hx)].
Qed.
Lemma fnn_dry (x : PrimFloat.float) : fnn x -> (x =? n0)%num = negb (n0 <? x)%num.
Proof.
  intros (F & H). cbn [n_eqb n_ltb Num_f64].
  destruct (feqb_correct x n0 F ffin_zero) as [A|A], (fltb_correct n0 x ffin_zero F) as [B|B];
    rewrite fval_zero in *; cbn; try reflexivity; exfalso; lra.
Qed.
Lemma centers_fine_f64 k : (k < 7)%nat ->
  (PrimFloat.ltb (class_center k) n0 || PrimFloat.ltb n1 (class_center k)) = false.
Proof. intro H. do 7 (destruct k as [|k]; [vm_compute; reflexivity|]). lia. Qed.

Lemma fill0_nnR amounts : Forall amount_ok amounts -> Forall nnR (map fill0 amounts).
Proof.
  intro H. rewrite Forall_map. eapply Forall_impl; [|exact H]. intros a Ha.
  destruct (fill0_xr a Ha) as [-> P]. eexists; eauto.
Qed.

Lemma fill0_fnn amounts : Forall famount amounts -> Forall fnn (map fill0 amounts).
Proof.
  intro H. rewrite Forall_map. eapply Forall_impl; [|exact H]. intros a Ha. unfold fill0.
  change (n_isnan a) with (PrimFloat.is_nan a).
  destruct (PrimFloat.is_nan a) eqn:E.
  - split; [exact ffin_zero|rewrite fval_zero; lra].
  - destruct Ha as [Ha|Ha]; [congruence|]. apply andb_true_iff in Ha. destruct Ha as [A B].
    apply ffin_spec in A. split; [exact A|].
    destruct (fleb_correct 0%float a (proj2 (ffin_spec 0%float) eq_refl) A) as [C|]; [|discriminate].
    exact C.
Qed.

(** real weights with sum >= 1 reach every draw below 1 *)
Lemma cumw_xr (w : nat -> R) k :
  cumw (fun k => Fin (w k)) k = Fin (Rsum (map w (seq 0 (S k)))).
Proof.
  unfold cumw. rewrite <- (map_map w Fin).
  assert (G : forall l a, fold_left n_add (map Fin l) (Fin a) = Fin (a + Rsum l)).
  { induction l as [|x l IH]; intro a; cbn [map fold_left].
    - f_equal. unfold Rsum; cbn. lra.
    - rewrite xadd_Fin, IH. f_equal. unfold Rsum; cbn [fold_right]. lra. }
  rewrite G. f_equal. 
Qed.

(** ** zero-filling and the two runs of C04 *)
Section Generic.
  Context {T : Type} {N : Num T}.

  Lemma zero_missing_daily d0 (amounts : list T) :
    zero_missing (daily d0 amounts) = daily d0 (map fill0 amounts).
  Proof.
    apply list_nth_error_ext. intro i.
    unfold zero_missing, mask_set. rewrite nth_error_map, !daily_nth_error, nth_error_map.
    destruct (nth_error amounts i) as [a|] eqn:E; [|reflexivity]. cbn [option_map fst snd].
    rewrite (missing_day_mem d0 amounts i a E). reflexivity.
  Qed.

  (** what happens between zero-filling and restoring the missing days *)
  Definition core (e : env) (s0 : series T) (arg : casc_arg T) (hourly : bool) (lvl : nat)
             (draws : nat -> T) (pos : nat) : res (option (list (list T) * series T)) :=
    let si := n_levels hourly lvl in
    let* _ := check_options arg si in
    let* r := levels_from arg draws hourly lvl si 1 (values s0) (st0 pos) [] in
    match r with
    | None => Ok None
    | Some [] => Err UnboundLocalError
    | Some (vdn_out :: rest) =>
        let* out :=
          if hourly then
            let* idx := hourly_index e (index s0) in
            mk_series idx (to_hours vdn_out)
          else
            let* idx := sub_level_index e (index s0) lvl in
            let* sn := mk_series idx vdn_out in
            Ok (resample (5 * us_minute) nansum sn)
        in Ok (Some (vdn_out :: rest, out))
    end.

  Lemma cascade_core e s arg hourly lvl shft draws pos :
    disagg_prec_cascade e s arg hourly lvl shft draws pos =
    if Nat.ltb (length s) 2 then Err ValueError else
    match core e (zero_missing s) arg hourly lvl draws pos with
    | Err x => Err x
    | Ok None => Ok None
    | Ok (Some (_, out)) =>
        let out := restore_missing (missing_days s) out in
        Ok (Some (if shft =? 0 then out else shift shft out))
    end.
  Proof.
    unfold disagg_prec_cascade, disagg_prec_cascade_full, core. cbv zeta.
    destruct (Nat.ltb (length s) 2); [reflexivity|].
    destruct (check_options _ _); cbn [bind]; [|reflexivity].
    destruct (levels_from _ _ _ _ _ _ _ _ _) as [[[|o rest]|]|]; cbn [bind]; try reflexivity.
    destruct hourly.
    - destruct (hourly_index e _); cbn [bind]; [|reflexivity].
      destruct (mk_series _ _); cbn [bind]; reflexivity.
    - destruct (sub_level_index e _ _); cbn [bind]; [|reflexivity].
      destruct (mk_series _ _); cbn [bind]; reflexivity.
  Qed.

  Lemma restored_general d0 amounts (out : series T) i a :
    nth_error amounts i = Some a ->
    values_on (d0 + Z.of_nat i) (restore_missing (missing_days (daily d0 amounts)) out)
    = if n_isnan a then repeat n_nan (length (values_on (d0 + Z.of_nat i) out))
      else values_on (d0 + Z.of_nat i) out.
  Proof.
    intro E. pose proof (missing_date_mem d0 amounts i a E) as M.
    unfold restore_missing. cbv zeta. destruct (n_isnan a).
    - rewrite values_on_mask by (intros t Ht; unfold date_of; rewrite Ht; exact M).
      apply map_const.
    - apply values_on_mask_off. intros t Ht; unfold date_of; rewrite Ht; exact M.
  Qed.

  Lemma missing_as_zero e d0 before after (x : T) arg hourly lvl draws pos :
    n_isnan x = true -> n_isnan n0 = false ->
    forall out, disagg_prec_cascade e (daily d0 (before ++ x :: after)) arg hourly lvl 0 draws pos
                = Ok (Some out) ->
    exists out', disagg_prec_cascade e (daily d0 (before ++ n0 :: after)) arg hourly lvl 0 draws pos
                 = Ok (Some out') /\
      index out' = index out /\
      forall j, (j < length (before ++ x :: after))%nat -> j <> length before ->
        values_on (d0 + Z.of_nat j) out' = values_on (d0 + Z.of_nat j) out.
  Proof.
    intros Hx H0 out H. rewrite cascade_core in H |- *.
    rewrite !daily_length, !app_length in *. cbn [length] in *.
    destruct (Nat.ltb _ _); [discriminate|].
    rewrite zero_missing_daily in H |- *.
    assert (Ef : map fill0 (before ++ n0 :: after) = map fill0 (before ++ x :: after)).
    { rewrite !map_app. cbn [map]. unfold fill0 at 2 5. rewrite Hx, H0. reflexivity. }
    rewrite Ef. destruct (core _ _ _ _ _ _ _) as [[[lv o]|]|]; try discriminate.
    rewrite Z.eqb_refl in H |- *. injection H as <-. eexists. split; [reflexivity|]. split.
    { rewrite !restore_missing_index. reflexivity. }
    intros j Hj Hne.
    assert (En : nth_error (before ++ n0 :: after) j = nth_error (before ++ x :: after) j).
    { destruct (Nat.lt_ge_cases j (length before)).
      - rewrite !nth_error_app1 by assumption. reflexivity.
      - rewrite !nth_error_app2 by assumption.
        destruct (j - length before)%nat eqn:D; [lia|reflexivity]. }
    destruct (nth_error (before ++ x :: after) j) as [a|] eqn:Ea.
    2:{ apply nth_error_None in Ea. rewrite app_length in Ea. cbn in Ea. lia. }
    rewrite (restored_general _ _ _ _ _ En), (restored_general _ _ _ _ _ Ea). reflexivity.
  Qed.

  (** ** shift *)
  Lemma shift_values_nth k (l : list T) p : (p < length l)%nat ->
    nth_error (shift_values k l) p =
    if (0 <=? Z.of_nat p - k) && (Z.of_nat p - k <? Z.of_nat (length l))
    then nth_error l (Z.to_nat (Z.of_nat p - k)) else Some n_nan.
  Proof.
    intro Hp. unfold shift_values. destruct (Z.leb_spec 0 k) as [Hk|Hk].
    - rewrite Z.abs_eq by lia.
      assert (G : forall (l' : list T) n, (p < n)%nat -> nth_error (firstn n l') p = nth_error l' p).
      { clear. intros l'. revert p. induction l' as [|x l' IH]; intros p n H.
        - rewrite firstn_nil. reflexivity.
        - destruct n; [lia|]. destruct p; [reflexivity|]. cbn. apply IH. lia. }
      rewrite G by assumption.
      destruct (Z.leb_spec 0 (Z.of_nat p - k)) as [H1|H1]; cbn [andb].
      + destruct (Z.ltb_spec (Z.of_nat p - k) (Z.of_nat (length l))) as [H2|H2]; [|lia].
        rewrite nth_error_app2; rewrite repeat_length; [|lia]. f_equal. lia.
      + rewrite nth_error_app1 by (rewrite repeat_length; lia).
        apply nth_error_repeat. lia.
    - rewrite Z.abs_neq by lia.
      destruct (Z.leb_spec 0 (Z.of_nat p - k)) as [H1|H1]; [|lia]. cbn [andb].
      assert (S0 : forall n (l' : list T) q, nth_error (skipn n l') q = nth_error l' (n + q)).
      { clear. induction n as [|n IH]; intros l' q; [reflexivity|].
        destruct l'; [destruct q; reflexivity|]. cbn. apply IH. }
      destruct (Z.ltb_spec (Z.of_nat p - k) (Z.of_nat (length l))) as [H2|H2].
      + rewrite nth_error_app1 by (rewrite skipn_length; lia).
        rewrite S0. f_equal. lia.
      + rewrite nth_error_app2 by (rewrite skipn_length; lia). rewrite skipn_length.
        apply nth_error_repeat. lia.
  Qed.

  (** ** hourly time stamps *)
  Lemma cascade_hourly_index e d0 amounts arg lvl shft draws pos out :
    disagg_prec_cascade e (daily d0 amounts) arg true lvl shft draws pos = Ok (Some out) ->
    map fst out = hours_index d0 (length amounts).
  Proof.
    intro H. destruct (cascade_hourly_inv _ _ _ _ _ _ _ _ _ H) as (Hlen & boxes & R0 & E).
    cbv zeta in E. pose proof (hourly_boxes_length _ _ _ R0) as HL.
    assert (B : index (restore_missing (missing_days (daily d0 amounts))
                 (combine (hours_index d0 (length amounts)) (to_hours boxes)))
                = hours_index d0 (length amounts)).
    { rewrite restore_missing_index. unfold index. apply map_fst_combine.
      unfold hours_index. rewrite grid_length, HL. reflexivity. }
    change (index out = hours_index d0 (length amounts)). subst out.
    destruct (shft =? 0); [|rewrite shift_index]; exact B.
  Qed.

  (** daily stamps at hour h >= 1 (plus anything below an hour) *)
  Lemma hourly_index_offset e f d0 h r n : 1 <= h <= 23 -> 0 <= r < us_hour ->
    hourly_index_gen e f (grid (d0 * us_day + h * us_hour + r) us_day (S n))
    = Ok (grid (d0 * us_day + h * us_hour + r) us_hour (24 * S n - Z.to_nat h)).
  Proof.
    intros Hh Hr. unfold hourly_index_gen.
    rewrite idx_min_grid, idx_max_grid by (unfold us_day; lia).
    assert (E : replace_hour (d0 * us_day + h * us_hour + r + Z.of_nat n * us_day) 23
                = d0 * us_day + h * us_hour + r + (24 * Z.of_nat (S n) - 1 - h) * us_hour).
    { unfold replace_hour.
      pose proof (date_hour_split (d0 + Z.of_nat n) h r ltac:(lia) Hr) as (A & B & C).
      unfold midnight in *.
      replace (d0 * us_day + h * us_hour + r + Z.of_nat n * us_day)
        with ((d0 + Z.of_nat n) * us_day + h * us_hour + r) by lia.
      rewrite A, C. unfold us_day, us_hour in *. lia. }
    rewrite E. unfold us_hour, us_day in *.
    rewrite date_range_grid by lia.
    replace (Z.to_nat _) with (24 * S n - Z.to_nat h)%nat.
    2:{ replace (d0 * 86400000000 + h * 3600000000 + r + (24 * Z.of_nat (S n) - 1 - h) * 3600000000
                  - (d0 * 86400000000 + h * 3600000000 + r))
          with ((24 * Z.of_nat (S n) - 1 - h) * 3600000000) by lia.
        rewrite Z.div_mul by lia. lia. }
    rewrite !grid_length.
    assert (L : Nat.ltb (S n * 24) (24 * S n - Z.to_nat h) = false) by (apply Nat.ltb_ge; lia).
    rewrite L, andb_false_r. reflexivity.
  Qed.

  Lemma cascade_offset e d0 h r (amounts : list T) arg lvl shft draws pos out :
    1 <= h <= 23 -> 0 <= r < us_hour ->
    disagg_prec_cascade e
      (combine (grid (d0 * us_day + h * us_hour + r) us_day (length amounts)) amounts)
      arg true lvl shft draws pos <> Ok (Some out).
  Proof.
    intros Hh Hr H. rewrite cascade_core in H.
    set (s := combine _ _) in *.
    assert (Ls : length s = length amounts).
    { unfold s. rewrite combine_length, grid_length. lia. }
    destruct (Nat.ltb_spec (length s) 2) as [?|L]; [discriminate|].
    destruct (core _ _ _ _ _ _ _) as [[[lv o]|]|] eqn:C; try discriminate. clear H.
    unfold core in C. cbv zeta in C.
    apply bind_Ok in C. destruct C as (u & _ & C).
    apply bind_Ok in C. destruct C as (acc & E & C). destruct acc as [acc|]; [|discriminate].
    destruct (levels_from_refines _ _ _ _ _ _ _ _ _ _ (st0_ok pos) E)
      as [[E0 _]|(boxes & rest & -> & Rf)]; [discriminate|].
    apply bind_Ok in C. destruct C as (o2 & C & _).
    apply bind_Ok in C. destruct C as (idx & I & C).
    rewrite zero_missing_index in I. unfold index, s, hourly_index in I.
    rewrite map_fst_combine in I by apply grid_length.
    destruct (length amounts) as [|n] eqn:En; [lia|].
    rewrite hourly_index_offset in I by assumption.
    match type of I with Ok ?g = Ok _ => assert (idx = g) as -> by congruence end.
    unfold mk_series in C. rewrite grid_length in C.
    assert (HL : length (to_hours boxes) = (24 * S n)%nat).
    { apply to_hours_length. apply refines_length in Rf. rewrite Rf.
      unfold values. rewrite map_length, zero_missing_length, Ls. reflexivity. }
    rewrite HL in C.
    assert (Ne : Nat.eqb (24 * S n - Z.to_nat h) (24 * S n) = false) by (apply Nat.eqb_neq; lia).
    rewrite Ne in C. discriminate.
  Qed.

  (** ** rejected arguments *)
  Lemma cascade_short e s arg hourly lvl shft draws pos : (length s < 2)%nat ->
    disagg_prec_cascade (T := T) e s arg hourly lvl shft draws pos = Err ValueError.
  Proof.
    intro H. rewrite cascade_core. destruct (Nat.ltb_spec (length s) 2); [reflexivity|lia].
  Qed.
  Lemma cascade_badlist e s l hourly lvl shft draws pos : (2 <= length s)%nat ->
    length l <> n_levels hourly lvl ->
    disagg_prec_cascade (T := T) e s (CList l) hourly lvl shft draws pos = Err ValueError.
  Proof.
    intros H Hl. rewrite cascade_core. destruct (Nat.ltb_spec (length s) 2); [lia|].
    unfold core. cbn [check_options]. destruct (Nat.eqb_spec (length l) (n_levels hourly lvl));
      [contradiction|reflexivity].
  Qed.
  Lemma cascade_badtype e s hourly lvl shft draws pos : (2 <= length s)%nat ->
    disagg_prec_cascade (T := T) e s COther hourly lvl shft draws pos = Err TypeError.
  Proof.
    intro H. rewrite cascade_core. destruct (Nat.ltb_spec (length s) 2); [lia|]. reflexivity.
  Qed.
  Lemma cascade_fewthresholds e s c hourly lvl shft draws pos : (2 <= length s)%nat ->
    (length (threshold c) < n_levels hourly lvl)%nat ->
    disagg_prec_cascade (T := T) e s (COne c) hourly lvl shft draws pos = Err IndexError.
  Proof.
    intros H Hl. rewrite cascade_core. destruct (Nat.ltb_spec (length s) 2); [lia|].
    unfold core. cbv zeta. cbn [check_options bind].
    destruct (n_levels hourly lvl) as [|si] eqn:En; [lia|]. cbn [levels_from].
    assert (A : Nat.ltb (allocated hourly lvl) 1 = false).
    { unfold allocated. destruct (Nat.eqb_spec lvl 10), (Nat.eqb_spec lvl 11), hourly; subst; reflexivity. }
    rewrite A. cbn [level_stats]. unfold getitem.
    replace (nth_error (threshold c) si) with (@None T) by (symmetry; apply nth_error_None; lia).
    reflexivity.
  Qed.
End Generic.
