(** The loop refines the step relation of SpecCascade.v and always gets through. *)
From Coq Require Import ZArith List Bool Lia.
From Verif Require Import Py Num Cal Series UtilModel SpecBase TimeProofs CascadeModel PrecipModel
  SpecCascade CascadeProofs.
Import ListNotations.
Open Scope Z_scope.

Section Generic.
  Context {T : Type} {N : Num T}.

  Lemma wxxcum_cumw (c : casc T) k b t : wxxcum c k b t = cumw (fun k => wxx c k b t) k.
  Proof.
    unfold cumw. induction k as [|k IH]; [reflexivity|].
    cbn [wxxcum]. rewrite IH. rewrite seq_S, map_app, fold_left_app. reflexivity.
  Qed.

  Lemma center_class k : (k < 7)%nat -> (center k : T) = class_center k.
  Proof. intro H. do 7 (destruct k as [|k]; [reflexivity|]). lia. Qed.

  Lemma find_seq_first f : forall n s k, find f (seq s n) = Some k ->
    (s <= k < s + n)%nat /\ f k = true /\ forall j, (s <= j < k)%nat -> f j = false.
  Proof.
    induction n as [|n IH]; intros s k H; [discriminate|].
    cbn in H. destruct (f s) eqn:F.
    - injection H as <-. repeat split; [lia|lia|assumption|intros; lia].
    - apply IH in H. destruct H as (A & B & C). repeat split; [lia|lia|assumption|].
      intros j Hj. destruct (Nat.eq_dec j s) as [->|]; [assumption|apply C; lia].
  Qed.

  Lemma find_class_picks c b t u k : find_class c b t u = Some k ->
    picks (fun k => wxx c k b t) u k.
  Proof.
    intro H. unfold find_class in H. apply find_seq_first in H. destruct H as (A & B & C).
    unfold picks. split; [lia|]. rewrite <- wxxcum_cumw. split; [exact B|].
    intros j Hj. rewrite <- wxxcum_cumw. apply C. lia.
  Qed.

  Lemma find_class_exists c b t u :
    (u <=? cumw (fun k => wxx c k b t) 6)%num = true -> exists k, find_class c b t u = Some k.
  Proof.
    intro H. unfold find_class. destruct (find _ _) as [k|] eqn:F; [eauto|].
    exfalso. rewrite <- wxxcum_cumw in H.
    rewrite (find_none _ _ F 6%nat) in H; [discriminate|]. apply in_seq. lia.
  Qed.

  (** hypotheses on the number type: values stay in a set [P] on which "dry" means "== 0" *)
  Variable P : T -> Prop.
  Hypothesis P_branch : forall x a b, P x -> branch x a b -> P a /\ P b.
  Hypothesis P_dry : forall x, P x -> (x =? n0)%num = negb (n0 <? x)%num.
  Hypothesis centers_fine : forall k, (k < 7)%nat ->
    ((class_center k <? n0) || (n1 <? class_center k))%num = false.

  Lemma Forall_nth_error {A} (Q : A -> Prop) l i x : Forall Q l -> nth_error l i = Some x -> Q x.
  Proof. intros F H. rewrite Forall_forall in F. apply F. eapply nth_error_In; exact H. Qed.

  Lemma box_type_column v i x old : Forall P v -> (2 <= length v)%nat -> nth_error v i = Some x ->
    exists t, box_type v i old = Ok (Some t) /\ (t - 1)%nat = column_at v i /\ (column_at v i < 4)%nat.
  Proof.
    intros F L Hx. assert (Hi : (i < length v)%nat) by (apply nth_error_Some; congruence).
    unfold box_type, column_at, getitem, wet_at, wet.
    destruct (Nat.eqb_spec i 0) as [->|Hi0].
    { destruct (nth_error v 1) as [y|] eqn:E1; [|apply nth_error_None in E1; lia].
      cbn [bind]. destruct (n_ltb n0 y); eexists; repeat split; cbn; lia. }
    destruct i as [|i]; [lia|]. replace (S i - 1)%nat with i by lia.
    destruct (nth_error v i) as [y|] eqn:Ey; [|apply nth_error_None in Ey; lia].
    pose proof (P_dry y (Forall_nth_error _ _ _ _ F Ey)) as Dy.
    destruct (Nat.eqb_spec (S i) (length v - 1)) as [El|Nl].
    { assert (E2 : nth_error v (S (S i)) = None) by (apply nth_error_None; lia).
      rewrite E2. cbn [bind]. destruct (n_ltb n0 y); eexists; repeat split; cbn; lia. }
    destruct (nth_error v (S (S i))) as [z|] eqn:Ez; [|apply nth_error_None in Ez; lia].
    pose proof (P_dry z (Forall_nth_error _ _ _ _ F Ez)) as Dz.
    cbn [bind]. rewrite Dy, Dz.
    destruct (n_ltb n0 y), (n_ltb n0 z); eexists; repeat split; cbn; lia.
  Qed.

  Lemma do_box_steps c m draws v i x s :
    Forall P v -> (2 <= length v)%nat -> nth_error v i = Some x -> weights_reach c draws ->
    exists a b s', do_box c m draws v i x s = Ok (Boxes a b s') /\
      box_step c m draws v i x (rng s) a b (rng s').
  Proof.
    intros F L Hx R. unfold do_box.
    destruct (n_ltb n0 x) eqn:W.
    2:{ do 3 eexists. split; [reflexivity|]. apply step_dry. exact W. }
    destruct (box_type_column v i x (vbt s) F L Hx) as (t & -> & Et & Ht). cbn [bind].
    rewrite Et. fold (row m x). set (b := row m x). set (co := column_at v i) in *.
    destruct (n_leb (draws (rng s)) (p01 c b co)) eqn:C0.
    { do 3 eexists. split; [reflexivity|]. cbn [rng]. rewrite <- Nat.add_1_r.
      apply step_01; assumption. }
    destruct (n_ltb (p01 c b co) (draws (rng s))) eqn:C1; cbn [andb].
    1: destruct (n_leb (draws (rng s)) (n_add (p01 c b co) (p10 c b co))) eqn:C2.
    { do 3 eexists. split; [reflexivity|]. cbn [rng]. rewrite <- Nat.add_1_r.
      apply step_10; assumption. }
    all: destruct (find_class_exists c b co (draws (S (rng s)))) as (k & Hk);
      [apply R; [unfold b, row; destruct (n_ltb m x); lia|exact Ht]|];
      unfold guess_w1; rewrite Hk;
      pose proof (find_class_picks _ _ _ _ _ Hk) as Pk;
      rewrite (centers_fine k) by apply Pk;
      do 3 eexists; (split; [reflexivity|]); cbn [rng];
      rewrite <- (center_class k) by apply Pk;
      replace (S (S (rng s))) with (rng s + 2)%nat by lia;
      rewrite <- Nat.add_1_r in Pk;
      apply step_xx with (k := k); auto.
  Qed.

  Lemma level_from_steps c m draws v : Forall P v -> (2 <= length v)%nat -> weights_reach c draws ->
    forall rest i s, rest = skipn i v -> st_ok s ->
    exists out s', level_from c m draws v i rest s = Ok (Some (out, s')) /\
      row_steps c m draws v i (rng s) rest out (rng s') /\ Forall P out /\ st_ok s' /\
      length out = (2 * length rest)%nat.
  Proof.
    intros F L R. induction rest as [|x rest IH]; intros i s Hr Hs.
    - exists [], s. repeat split; auto; constructor.
    - assert (Hx : nth_error v i = Some x).
      { rewrite <- (firstn_skipn i v), <- Hr. rewrite nth_error_app2; rewrite firstn_length.
        - replace (i - Nat.min i (length v))%nat with O; [reflexivity|].
          assert (length (skipn i v) = length (x :: rest)) by congruence.
          rewrite skipn_length in H. cbn in H. lia.
        - lia. }
      assert (Hr' : rest = skipn (S i) v).
      { change (S i) with (1 + i)%nat. rewrite Nat.add_comm, skipn_add, <- Hr. reflexivity. }
      destruct (do_box_steps c m draws v i x s F L Hx R) as (a & b & s1 & D & B).
      destruct (do_box_branch _ _ _ _ _ _ _ _ _ _ Hs D) as [Br Hs1].
      destruct (P_branch _ _ _ (Forall_nth_error _ _ _ _ F Hx) Br) as [Pa Pb].
      destruct (IH (S i) s1 Hr' Hs1) as (out & s2 & E & RS & Fo & Hs2 & Lo).
      exists (a :: b :: out), s2. cbn [level_from]. rewrite D. cbn [bind]. rewrite E. cbn [bind].
      split; [reflexivity|]. split; [econstructor; eassumption|].
      split; [constructor; [|constructor]; assumption|]. split; [assumption|]. cbn [length]. lia.
  Qed.

  (** statistics of a level, as documented: element k of the list with its own first threshold;
      or the single object with threshold number k *)
  Lemma level_stats_fine arg draws L k : stats_fine arg draws L -> (k < L)%nat ->
    exists c m, level_stats arg k = Ok (c, m) /\ stats_of arg k (c, m) /\ weights_reach c draws.
  Proof.
    intros H Hk. destruct arg as [c|l|]; cbn in H; [| |contradiction].
    - destruct H as [H R]. cbn. unfold getitem.
      destruct (nth_error (threshold c) k) as [m|] eqn:E; [|apply nth_error_None in E; lia].
      exists c, m. cbn. auto.
    - destruct H as [H R]. cbn. unfold getitem.
      destruct (nth_error l k) as [c|] eqn:E; [|apply nth_error_None in E; lia].
      destruct (Forall_nth_error _ _ _ _ R E) as [Hn Hw]. cbn [bind].
      destruct (threshold c) as [|m th] eqn:Et; [contradiction|]. cbn.
      exists c, m. cbn. rewrite Et. auto.
  Qed.

  Lemma levels_from_steps arg draws hourly lvl L : stats_fine arg draws L ->
    (L <= allocated hourly lvl)%nat ->
    forall si l v s acc, (l + si = L + 1)%nat -> (si <= L)%nat ->
    Forall P v -> (2 <= length v)%nat -> st_ok s ->
    exists arrays, levels_from arg draws hourly lvl si l v s acc = Ok (Some (rev arrays ++ acc)) /\
      cascade_steps (stats_of arg) draws si (rng s) v arrays /\ length arrays = si.
  Proof.
    intros SF HA. induction si as [|si IH]; intros l v s acc Hl Hs F Lv So.
    - exists []. repeat split; constructor.
    - cbn [levels_from]. destruct (Nat.ltb_spec (allocated hourly lvl) l) as [C|_]; [lia|].
      destruct (level_stats_fine arg draws L si SF ltac:(lia)) as (c & m & -> & St & R).
      cbn [bind fst snd]. unfold level.
      destruct (level_from_steps c m draws v F Lv R v 0 s eq_refl So)
        as (out & s1 & -> & RS & Fo & So1 & Lo). cbn [bind].
      destruct (IH (S l) out s1 (out :: acc) ltac:(lia) ltac:(lia) Fo ltac:(lia) So1)
        as (arrays & -> & CS & LA).
      exists (out :: arrays). split; [|split].
      + cbn [rev]. rewrite <- app_assoc. reflexivity.
      + econstructor; eassumption.
      + cbn. lia.
  Qed.

  (** hourly disaggregation of consecutive days: a result is always returned, and its level
      arrays are produced by the step relation *)
  Lemma cascade_hourly_total e d0 amounts arg lvl shft draws pos :
    (2 <= length amounts)%nat -> Forall P (map fill0 amounts) -> stats_fine arg draws 5 ->
    exists r, disagg_prec_cascade_full e (daily d0 amounts) arg true lvl shft draws pos = Ok (Some r) /\
      cascade_steps (stats_of arg) draws 5 pos (map fill0 amounts) (cr_levels r).
  Proof.
    intros L F SF. unfold disagg_prec_cascade_full. rewrite daily_length.
    destruct (Nat.ltb_spec (length amounts) 2) as [?|_]; [lia|].
    assert (CO : check_options arg (n_levels true lvl) = Ok tt).
    { destruct arg as [c|l|]; cbn in SF |- *; [reflexivity| |contradiction].
      destruct SF as [-> _]. reflexivity. }
    rewrite CO. cbn [bind]. rewrite zero_missing_values.
    assert (HA : (5 <= allocated true lvl)%nat)
      by (unfold allocated; destruct (Nat.eqb lvl 10 || Nat.eqb lvl 11); lia).
    destruct (levels_from_steps arg draws true lvl 5 SF HA 5 1 (map fill0 amounts) (st0 pos) []
                ltac:(lia) ltac:(lia) F ltac:(rewrite map_length; lia) (st0_ok pos))
      as (arrays & E & CS & LA).
    change (n_levels true lvl) with 5%nat. rewrite E. cbn [bind]. rewrite app_nil_r in *.
    pose proof (levels_from_refines _ _ _ _ _ _ _ _ _ _ (st0_ok pos) E) as [[C _]|(boxes & rest & Er & Rf)];
      [discriminate|].
    rewrite Er. rewrite zero_missing_index. unfold index, hourly_index. rewrite daily_fst.
    destruct (length amounts) as [|n] eqn:En; [lia|]. rewrite hourly_index_daily. cbn [bind].
    unfold mk_series.
    assert (HL : length (to_hours boxes) = (24 * S n)%nat).
    { apply to_hours_length. apply refines_length in Rf. rewrite Rf, map_length, En. reflexivity. }
    unfold hours_index. rewrite grid_length, HL, Nat.eqb_refl. cbn [bind].
    eexists. split; [reflexivity|]. cbn [cr_levels].
    rewrite <- Er, rev_involutive. exact CS.
  Qed.

  (** the early [return] is never taken *)
  Lemma do_box_no_return c m draws v i x s : st_ok s -> do_box c m draws v i x s <> Ok Return.
  Proof.
    intros Hs H. unfold do_box in H.
    destruct (n_ltb n0 x); [|discriminate].
    apply bind_Ok in H. destruct H as (bt & _ & H). destruct bt; [|discriminate].
    destruct (n_leb _ _); [discriminate|]. destruct (andb _ _); [discriminate|].
    destruct (guess_w1 _ _ _ _ _) as [w|] eqn:G; [|discriminate].
    destruct (guess_ok _ _ _ _ _ _ Hs G) as (k & Hk & ->).
    rewrite (centers_fine k Hk) in H. discriminate.
  Qed.

  Lemma level_from_no_return c m draws v : forall rest i s, st_ok s ->
    level_from c m draws v i rest s <> Ok None.
  Proof.
    induction rest as [|x rest IH]; intros i s Hs H; cbn [level_from] in H; [discriminate|].
    apply bind_Ok in H. destruct H as (o & D & H). destruct o as [a b s1|].
    - destruct (do_box_branch _ _ _ _ _ _ _ _ _ _ Hs D) as [_ Hs1].
      apply bind_Ok in H. destruct H as (r & E & H). destruct r as [[? ?]|]; [discriminate|].
      exact (IH _ _ Hs1 E).
    - exact (do_box_no_return _ _ _ _ _ _ _ Hs D).
  Qed.

  Lemma levels_from_no_return arg draws hourly lvl : forall si l v s acc, st_ok s ->
    levels_from arg draws hourly lvl si l v s acc <> Ok None.
  Proof.
    induction si as [|si IH]; intros l v s acc Hs H; cbn [levels_from] in H; [discriminate|].
    destruct (Nat.ltb _ _); [discriminate|].
    apply bind_Ok in H. destruct H as (cm & _ & H).
    apply bind_Ok in H. destruct H as (r & E & H). destruct r as [[out s1]|].
    - destruct (level_from_splits _ _ _ _ _ _ _ _ _ Hs E) as [_ Hs1]. exact (IH _ _ _ _ Hs1 H).
    - exact (level_from_no_return _ _ _ _ _ _ _ Hs E).
  Qed.

  Lemma cascade_no_return e s arg hourly lvl shft draws pos :
    disagg_prec_cascade e s arg hourly lvl shft draws pos <> Ok None.
  Proof.
    unfold disagg_prec_cascade, disagg_prec_cascade_full. intro H.
    apply bind_Ok in H. destruct H as (r & H & Hr).
    destruct (Nat.ltb _ _); [discriminate|].
    apply bind_Ok in H. destruct H as (u & _ & H).
    apply bind_Ok in H. destruct H as (o & E & H). destruct o as [acc|].
    - destruct acc; [discriminate|].
      apply bind_Ok in H. destruct H as (o2 & _ & H). injection H as <-. discriminate.
    - exact (levels_from_no_return _ _ _ _ _ _ _ _ _ (st0_ok pos) E).
  Qed.
End Generic.
