(** Number-independent facts about the cascade: how one box branches, one level, all levels,
    lengths and time stamps. *)
From Coq Require Import ZArith List Bool Lia.
From Verif Require Import Py Num Cal Series UtilModel SpecBase TimeProofs CascadeModel PrecipModel SpecCascade.
Import ListNotations.
Open Scope Z_scope.

Section Generic.
  Context {T : Type} {N : Num T}.

  (** the four ways a box x can be replaced by a pair *)
  Inductive branch (x : T) : T -> T -> Prop :=
  | br_dry : (n0 <? x)%num = false -> branch x n0 n0
  | br_01 : (n0 <? x)%num = true -> branch x n0 x
  | br_10 : (n0 <? x)%num = true -> branch x x n0
  | br_xx k : (n0 <? x)%num = true -> (k < 7)%nat ->
      branch x (class_center k * x)%num ((n1 - class_center k) * x)%num.

  Inductive splits : list T -> list T -> Prop :=
  | sp_nil : splits [] []
  | sp_cons x a b v out : branch x a b -> splits v out -> splits (x :: v) (a :: b :: out).

  Fixpoint refines (k : nat) (v out : list T) : Prop :=
    match k with
    | O => out = v
    | S k' => exists m, splits v m /\ refines k' m out
    end.

  (** the surviving variable w1 only ever holds a class centre *)
  Definition st_ok (s : st (T := T)) : Prop :=
    forall w, wgt s = Some w -> exists k, (k < 7)%nat /\ w = class_center k.

  Lemma st0_ok pos : st_ok (st0 pos).
  Proof. intros w H; discriminate. Qed.

  Lemma guess_ok c b t u old w :
    (forall w, old = Some w -> exists k, (k < 7)%nat /\ w = class_center k) ->
    guess_w1 c b t u old = Some w -> exists k, (k < 7)%nat /\ w = class_center k.
  Proof.
    intros Ho H. unfold guess_w1, find_class in H.
    destruct (find _ _) as [k|] eqn:F.
    - apply find_some in F. destruct F as [F _]. apply in_seq in F.
      injection H as <-. exists k; split; [lia|reflexivity].
    - auto.
  Qed.

  Lemma do_box_branch c m draws v i x s a b s' :
    st_ok s -> do_box c m draws v i x s = Ok (Boxes a b s') -> branch x a b /\ st_ok s'.
  Proof.
    intros Hs H. unfold do_box in H.
    destruct (n_ltb n0 x) eqn:W.
    2:{ injection H as <- <- <-. split; [apply br_dry; assumption|assumption]. }
    apply bind_Ok in H. destruct H as (bt & _ & H).
    destruct bt as [t|]; [|discriminate].
    destruct (n_leb (draws (rng s)) _) eqn:C0.
    { injection H as <- <- <-. split; [apply br_01; assumption|exact Hs]. }
    destruct (andb _ _) eqn:C1.
    { injection H as <- <- <-. split; [apply br_10; assumption|exact Hs]. }
    destruct (guess_w1 _ _ _ _ _) as [w|] eqn:G; [|discriminate].
    destruct (orb _ _) eqn:O; [discriminate|].
    injection H as <- <- <-.
    pose proof (guess_ok _ _ _ _ _ _ Hs G) as (k & Hk & ->).
    split; [apply br_xx; assumption|].
    intros w' Hw'. injection Hw' as <-. exists k; auto.
  Qed.

  Lemma level_from_splits c m draws v i rest s out s' :
    st_ok s -> level_from c m draws v i rest s = Ok (Some (out, s')) ->
    splits rest out /\ st_ok s'.
  Proof.
    revert i s out s'. induction rest as [|x rest IH]; intros i s out s' Hs H; cbn in H.
    - injection H as <- <-. split; [constructor|assumption].
    - apply bind_Ok in H. destruct H as (o & D & H). destruct o as [a b s1|]; [|discriminate].
      apply bind_Ok in H. destruct H as (r & L & H). destruct r as [[out1 s2]|]; [|discriminate].
      injection H as <- <-.
      destruct (do_box_branch _ _ _ _ _ _ _ _ _ _ Hs D) as [B Hs1].
      destruct (IH _ _ _ _ Hs1 L) as [S Hs2].
      split; [constructor; assumption|assumption].
  Qed.

  Lemma splits_length v out : splits v out -> length out = (2 * length v)%nat.
  Proof. induction 1 as [|x a b v out B S IH]; cbn [length]; lia. Qed.

  Lemma refines_length k v out : refines k v out -> length out = (2 ^ k * length v)%nat.
  Proof.
    revert v; induction k as [|k IH]; intros v H; cbn in H.
    - subst; cbn; lia.
    - destruct H as (m & S & R). apply IH in R. apply splits_length in S.
      rewrite R, S, Nat.pow_succ_r'. lia.
  Qed.

  Lemma levels_from_refines arg draws hourly lvl si l v s acc acc' :
    st_ok s -> levels_from arg draws hourly lvl si l v s acc = Ok (Some acc') ->
    si = O /\ acc' = acc \/
    exists out rest, acc' = out :: rest /\ refines si v out.
  Proof.
    revert l v s acc. induction si as [|si IH]; intros l v s acc Hs H; cbn [levels_from] in H.
    - injection H as <-. auto.
    - right. destruct (Nat.ltb _ _); [discriminate|].
      apply bind_Ok in H. destruct H as (cm & _ & H).
      apply bind_Ok in H. destruct H as (r & L & H). destruct r as [[out s1]|]; [|discriminate].
      destruct (level_from_splits _ _ _ _ _ _ _ _ _ Hs L) as [S Hs1].
      destruct (IH _ _ _ _ Hs1 H) as [[-> ->]|(o & rest & -> & R)].
      + exists out, acc. split; [reflexivity|]. cbn. eauto.
      + exists o, rest. split; [reflexivity|]. cbn. eauto.
  Qed.

  (** lengths of everything after the levels *)
  Lemma to_quarters_length v : length (to_quarters v) = (3 * length v)%nat.
  Proof. unfold to_quarters. induction v as [|x v IH]; cbn [flat_map length app]; lia. Qed.

  Lemma cumsum_from_length acc l : length (cumsum_from acc l) = length l.
  Proof. revert acc; induction l as [|x l IH]; intro acc; cbn; auto. Qed.
  Lemma cumsum_length l : length (cumsum l) = length l.
  Proof. destruct l as [|x l]; cbn; auto using cumsum_from_length. Qed.

  Lemma to_hours_length n v : length v = (32 * n)%nat -> length (to_hours v) = (24 * n)%nat.
  Proof.
    intro H. unfold to_hours, hours_of_cumsum. cbv zeta.
    rewrite map_length, seq_length, to_quarters_length, H.
    replace (3 * (32 * n))%nat with (24 * n * 4)%nat by lia. apply Nat.div_mul; lia.
  Qed.

  Lemma zero_missing_index s : index (zero_missing (T := T) s) = index s.
  Proof. unfold zero_missing, mask_set, index. rewrite map_map. apply map_ext; reflexivity. Qed.

  Lemma restore_missing_index miss s : index (restore_missing (T := T) miss s) = index s.
  Proof. unfold restore_missing, mask_set, index. rewrite map_map. apply map_ext; reflexivity. Qed.

  Lemma zero_missing_length s : length (zero_missing (T := T) s) = length s.
  Proof. unfold zero_missing, mask_set. apply map_length. Qed.

  (** what a returned result looks like (hourly, gap-free days) *)
  Lemma cascade_hourly_inv e d0 amounts arg lvl shft draws pos out :
    disagg_prec_cascade e (daily d0 amounts) arg true lvl shft draws pos = Ok (Some out) ->
    (2 <= length amounts)%nat /\
    exists boxes : list T,
      refines 5 (values (zero_missing (daily d0 amounts))) boxes /\
      let h := restore_missing (missing_days (daily d0 amounts))
                 (combine (hours_index d0 (length amounts)) (to_hours boxes)) in
      out = if shft =? 0 then h else shift shft h.
  Proof.
    unfold disagg_prec_cascade, disagg_prec_cascade_full. intro H.
    apply bind_Ok in H. destruct H as (r & H & Hr).
    destruct (Nat.ltb_spec (length (daily d0 amounts)) 2) as [?|Hlen]; [discriminate|].
    rewrite daily_length in Hlen.
    apply bind_Ok in H. destruct H as (u & _ & H). clear u.
    apply bind_Ok in H. destruct H as (o & L & H).
    destruct o as [acc|]; [|injection H as <-; discriminate].
    destruct (levels_from_refines _ _ _ _ _ _ _ _ _ _ (st0_ok pos) L)
      as [[E _]|(boxes & rest & -> & R)]; [discriminate|].
    apply bind_Ok in H. destruct H as (o2 & H2 & H).
    injection H as <-. cbn in Hr. injection Hr as <-.
    apply bind_Ok in H2. destruct H2 as (idx & HI & HM).
    split; [exact Hlen|]. exists boxes. split; [exact R|].
    cbv zeta.
    assert (idx = hours_index d0 (length amounts)) as ->.
    { rewrite zero_missing_index in HI. unfold index in HI. rewrite daily_fst in HI.
      destruct (length amounts) as [|n]; [lia|].
      unfold hourly_index in HI. rewrite hourly_index_daily in HI. injection HI as <-. reflexivity. }
    unfold mk_series in HM. destruct (Nat.eqb _ _); [|discriminate].
    injection HM as <-. reflexivity.
  Qed.

  Lemma hourly_boxes_length d0 amounts boxes :
    refines 5 (values (zero_missing (daily d0 amounts))) boxes ->
    length (to_hours boxes) = (24 * length amounts)%nat.
  Proof.
    intro R. apply to_hours_length. apply refines_length in R. rewrite R.
    unfold values. rewrite map_length, zero_missing_length, daily_length. reflexivity.
  Qed.

  Lemma shift_values_length k (l : list T) : length (shift_values k l) = length l.
  Proof.
    unfold shift_values. destruct (0 <=? k).
    - rewrite firstn_length, app_length, repeat_length. lia.
    - rewrite app_length, skipn_length, repeat_length. lia.
  Qed.

  Lemma shift_index k (s : series T) : index (shift k s) = index s.
  Proof.
    unfold shift, index. apply map_fst_combine.
    rewrite shift_values_length. unfold values. rewrite !map_length. reflexivity.
  Qed.

  (** ** missing values and dates, for a daily series *)
  Lemma daily_nth_error d0 (amounts : list T) i :
    nth_error (daily d0 amounts) i
    = option_map (fun a => ((d0 + Z.of_nat i) * us_day, a)) (nth_error amounts i).
  Proof.
    unfold daily, daily_index. revert d0 i. induction amounts as [|a amounts IH]; intros d0 i.
    - destruct i; reflexivity.
    - cbn [length]. rewrite grid_S. cbn [combine]. destruct i as [|i]; cbn [nth_error].
      + cbn. f_equal. f_equal. lia.
      + replace (d0 * us_day + us_day) with ((d0 + 1) * us_day) by lia.
        rewrite IH. destruct (nth_error amounts i); cbn [option_map]; [|reflexivity].
        f_equal. f_equal. lia.
  Qed.

  Lemma mem_In k l : mem k l = true <-> In k l.
  Proof.
    unfold mem. rewrite existsb_exists. split.
    - intros (x & Hx & E). apply Z.eqb_eq in E. subst; assumption.
    - intro H. exists k. rewrite Z.eqb_refl. auto.
  Qed.

  Lemma missing_days_In d0 (amounts : list T) t :
    In t (missing_days (daily d0 amounts)) <->
    exists i a, nth_error amounts i = Some a /\ n_isnan a = true /\ t = (d0 + Z.of_nat i) * us_day.
  Proof.
    unfold missing_days. rewrite in_map_iff. split.
    - intros ([u a] & <- & H). apply filter_In in H. destruct H as [HI Hn]. cbn [snd fst] in *.
      apply In_nth_error in HI. destruct HI as (i & Hi). rewrite daily_nth_error in Hi.
      destruct (nth_error amounts i) as [a'|] eqn:E; [|discriminate]. cbn in Hi.
      injection Hi as <- <-. exists i, a'. auto.
    - intros (i & a & E & Hn & ->). exists ((d0 + Z.of_nat i) * us_day, a). split; [reflexivity|].
      apply filter_In. split; [|exact Hn].
      apply nth_error_In with (n := i). rewrite daily_nth_error, E. reflexivity.
  Qed.

  Lemma missing_day_mem d0 (amounts : list T) i a : nth_error amounts i = Some a ->
    mem ((d0 + Z.of_nat i) * us_day) (missing_days (daily d0 amounts)) = n_isnan a.
  Proof.
    intro E. destruct (n_isnan a) eqn:Hn.
    - apply mem_In, missing_days_In. exists i, a. auto.
    - apply not_true_iff_false. intro C. apply mem_In, missing_days_In in C.
      destruct C as (j & a' & E' & Hn' & Eq).
      assert (i = j) by (unfold us_day in Eq; nia). subst j. congruence.
  Qed.

  Lemma missing_date_mem d0 (amounts : list T) i a : nth_error amounts i = Some a ->
    mem (d0 + Z.of_nat i) (map date_of (missing_days (daily d0 amounts))) = n_isnan a.
  Proof.
    intro E. rewrite <- (missing_day_mem d0 amounts i a E).
    apply eq_true_iff_eq. rewrite !mem_In, in_map_iff. split.
    - intros (t & Ht & HI). pose proof HI as HI'. apply missing_days_In in HI'.
      destruct HI' as (j & a' & E' & _ & ->).
      replace (d0 + Z.of_nat i) with (d0 + Z.of_nat j); [assumption|].
      rewrite <- Ht. change ((d0 + Z.of_nat j) * us_day) with (midnight (d0 + Z.of_nat j)).
      rewrite date_midnight. reflexivity.
    - intro HI. exists ((d0 + Z.of_nat i) * us_day). split; [|assumption].
      apply (date_midnight (d0 + Z.of_nat i)).
  Qed.


  Lemma list_nth_error_ext {A} (l1 l2 : list A) :
    (forall i, nth_error l1 i = nth_error l2 i) -> l1 = l2.
  Proof.
    revert l2. induction l1 as [|x l1 IH]; intros l2 H.
    - specialize (H O). destruct l2; [reflexivity|discriminate].
    - destruct l2 as [|y l2]; [specialize (H O); discriminate|].
      pose proof (H O) as H0. injection H0 as <-. f_equal. apply IH. intro i. apply (H (S i)).
  Qed.

  Lemma zero_missing_values d0 amounts :
    values (zero_missing (daily d0 amounts)) = map fill0 amounts.
  Proof.
    apply list_nth_error_ext. intro i.
    unfold values, zero_missing, mask_set. rewrite !nth_error_map, daily_nth_error.
    destruct (nth_error amounts i) as [a|] eqn:E; [|reflexivity]. cbn [option_map fst snd].
    rewrite (missing_day_mem d0 amounts i a E). reflexivity.
  Qed.

  (** day-wise view of the restored series *)
  Lemma values_on_mask d m (v : T) s :
    (forall t, t / us_day = d -> m t = true) -> values_on d (mask_set m v s) = map (fun _ => v) (values_on d s).
  Proof.
    intro H. unfold values_on, mask_set. induction s as [|[t x] s IH]; [reflexivity|].
    cbn [map filter fst]. destruct (Z.eqb_spec (t / us_day) d) as [E|E].
    - cbn [map snd]. rewrite (H t E). f_equal. exact IH.
    - exact IH.
  Qed.
  Lemma values_on_mask_off d m (v : T) s :
    (forall t, t / us_day = d -> m t = false) -> values_on d (mask_set m v s) = values_on d s.
  Proof.
    intro H. unfold values_on, mask_set. induction s as [|[t x] s IH]; [reflexivity|].
    cbn [map filter fst]. destruct (Z.eqb_spec (t / us_day) d) as [E|E].
    - cbn [map snd]. rewrite (H t E). f_equal. exact IH.
    - exact IH.
  Qed.

  Lemma chunk_length {A} k i (l : list A) n : length l = (k * n)%nat -> (i < n)%nat ->
    length (chunk k i l) = k.
  Proof. intros H Hi. unfold chunk. rewrite firstn_length, skipn_length, H. nia. Qed.

  Lemma map_const {A B} (v : B) (l : list A) : map (fun _ => v) l = repeat v (length l).
  Proof. induction l as [|x l IH]; cbn; congruence. Qed.

  Lemma restored_day d0 amounts hs i a : length hs = (24 * length amounts)%nat ->
    nth_error amounts i = Some a ->
    values_on (d0 + Z.of_nat i)
      (restore_missing (missing_days (daily d0 amounts))
         (combine (hours_index d0 (length amounts)) hs))
    = if n_isnan a then repeat n_nan 24 else chunk 24 i hs.
  Proof.
    intros Hl E. assert (Hi : (i < length amounts)%nat) by (apply nth_error_Some; congruence).
    pose proof (missing_date_mem d0 amounts i a E) as M.
    unfold restore_missing. cbv zeta. destruct (n_isnan a).
    - rewrite values_on_mask by (intros t Ht; unfold date_of; rewrite Ht; exact M).
      rewrite values_on_hours, map_const, (chunk_length _ _ _ (length amounts)) by assumption.
      reflexivity.
    - rewrite values_on_mask_off by (intros t Ht; unfold date_of; rewrite Ht; exact M).
      apply values_on_hours; assumption.
  Qed.
End Generic.
