(** distribute_equally: own-day values in spite of grouping by day of month. *)
From Coq Require Import ZArith List Bool Lia Reals Lra Floats.
From Verif Require Import Py Num Cal Series UtilModel SpecBase TimeProofs.
Import ListNotations.
Open Scope Z_scope.

Section Generic.
  Context {T : Type} {N : Num T}.

  Lemma group_values_app key k (a b : series T) :
    group_values key k (a ++ b) = group_values key k a ++ group_values key k b.
  Proof. unfold group_values. rewrite filter_app, map_app. reflexivity. Qed.
  Lemma group_values_all key k (s : series T) :
    (forall t, In t (map fst s) -> key t = k) -> group_values key k s = map snd s.
  Proof.
    unfold group_values. induction s as [|[t v] s IH]; intro H; [reflexivity|].
    cbn [filter fst]. rewrite (proj2 (Z.eqb_eq _ _) (H t (or_introl eq_refl))). cbn [map snd].
    f_equal. apply IH. intros u Hu. apply H. right. exact Hu.
  Qed.
  Lemma group_values_none key k (s : series T) :
    (forall t, In t (map fst s) -> key t <> k) -> group_values key k s = [].
  Proof.
    unfold group_values. induction s as [|[t v] s IH]; intro H; [reflexivity|].
    cbn [filter fst]. destruct (Z.eqb_spec (key t) k) as [E|_].
    - exfalso. exact (H t (or_introl eq_refl) E).
    - apply IH. intros u Hu. apply H. right. exact Hu.
  Qed.

  (** one block of rows with a common key *)
  Lemma transform_block key f (whole : series T) k (blk rest before : series T) :
    (forall t, In t (map fst blk) -> key t = k) ->
    transform_from key f whole before (blk ++ rest)
    = combine (map fst blk)
        (map (fun j => nth (length (group_values key k before) + j) (f (group_values key k whole)) n_nan)
             (seq 0 (length blk)))
      ++ transform_from key f whole (before ++ blk) rest.
  Proof.
    revert before. induction blk as [|[t v] blk IH]; intros before H.
    - cbn [app map length seq combine]. rewrite app_nil_r. reflexivity.
    - assert (Kt : key t = k) by (apply H; left; reflexivity).
      cbn [app transform_from map fst length seq combine]. rewrite Kt, Nat.add_0_r. f_equal.
      rewrite IH by (intros u Hu; apply H; right; exact Hu).
      rewrite <- app_assoc. cbn [app]. f_equal. f_equal.
      rewrite <- seq_shift, map_map. apply map_ext. intro j. f_equal.
      rewrite group_values_app, app_length.
      rewrite (group_values_all key k [(t, v)]) by (cbn; intros u [<-|[]]; exact Kt).
      cbn [map length]. lia.
  Qed.

  (** blocks of 24 rows *)
  Definition blocks_ok (key : Z -> Z) (ks : list Z) (bs : list (series T)) : Prop :=
    Forall2 (fun k b => length b = 24%nat /\ forall t, In t (map fst b) -> key t = k) ks bs.

  (** values of the blocks with key k, in order *)
  Fixpoint same_key (k : Z) (ks : list Z) (bs : list (series T)) : list (list T) :=
    match ks, bs with
    | k' :: ks, b :: bs => if k' =? k then map snd b :: same_key k ks bs else same_key k ks bs
    | _, _ => []
    end.
  Lemma group_values_blocks key k ks bs : blocks_ok key ks bs ->
    group_values key k (concat bs) = concat (same_key k ks bs).
  Proof.
    induction 1 as [|k' b ks bs [L Hk] F IH]; [reflexivity|].
    cbn [concat same_key]. rewrite group_values_app, IH.
    destruct (Z.eqb_spec k' k) as [->|E].
    - rewrite group_values_all by exact Hk. reflexivity.
    - rewrite group_values_none by (intros t Ht E2; apply E; rewrite <- (Hk t Ht); exact E2). reflexivity.
  Qed.
  Lemma same_key_len24 key k ks bs : blocks_ok key ks bs ->
    Forall (fun v => length v = 24%nat) (same_key k ks bs).
  Proof.
    induction 1 as [|k' b ks bs [L Hk] F IH]; [constructor|].
    cbn [same_key]. destruct (k' =? k); [constructor; [rewrite map_length; exact L|]|]; exact IH.
  Qed.
  Lemma concat_len24 {A} (l : list (list A)) : Forall (fun v => length v = 24%nat) l ->
    length (concat l) = (24 * length l)%nat.
  Proof. induction 1 as [|v l H F IH]; [reflexivity|]. cbn [concat length]. rewrite app_length. lia. Qed.
  Lemma nth_concat24 {A} (l : list (list A)) c j d : Forall (fun v => length v = 24%nat) l ->
    (j < 24)%nat -> nth (24 * c + j) (concat l) d = nth j (nth c l []) d.
  Proof.
    intros H Hj. revert c. induction H as [|v l Hv F IH]; intro c.
    - cbn [concat]. destruct c; destruct j; cbn; try reflexivity; destruct (_ + _)%nat; reflexivity.
    - cbn [concat]. destruct c.
      + cbn [Nat.mul Nat.add nth]. rewrite app_nth1 by lia. reflexivity.
      + rewrite app_nth2 by lia. cbn [nth]. rewrite <- IH. f_equal. lia.
  Qed.

  Lemma transform_blocks key f ks1 bs1 ks2 bs2 (whole : series T) :
    blocks_ok key ks1 bs1 -> blocks_ok key ks2 bs2 ->
    transform_from key f whole (concat bs1) (concat bs2)
    = concat (map (fun i =>
         let k := nth i ks2 0 in
         let c := length (same_key k (ks1 ++ firstn i ks2) (bs1 ++ firstn i bs2)) in
         combine (map fst (nth i bs2 []))
           (map (fun j => nth (24 * c + j) (f (group_values key k whole)) n_nan) (seq 0 24)))
       (seq 0 (length bs2))).
  Proof.
    intros H1 H2. revert ks1 bs1 H1. induction H2 as [|k b ks2 bs2 [L Hk] F IH]; intros ks1 bs1 H1.
    - reflexivity.
    - cbn [concat length seq map]. rewrite (transform_block key f whole k) by exact Hk.
      f_equal.
      + cbn [nth firstn]. rewrite !app_nil_r, L.
        rewrite (group_values_blocks key k ks1 bs1 H1), (concat_len24 _ (same_key_len24 key k ks1 bs1 H1)).
        reflexivity.
      + replace (concat bs1 ++ b) with (concat (bs1 ++ [b])) by (rewrite concat_app; cbn; rewrite app_nil_r; reflexivity).
        rewrite (IH (ks1 ++ [k]) (bs1 ++ [b])) by (apply Forall2_app; [exact H1|]; constructor; [split; assumption|constructor]).
        f_equal. rewrite <- seq_shift, map_map. apply map_ext. intro i. cbn [nth firstn].
        rewrite <- !app_assoc. reflexivity.
  Qed.

  Hypothesis nan_is_nan : n_isnan (n_nan : T) = true.

  (** ** forward filling a sequence of day blocks *)
  Definition dayblock_k (k : nat) (a : T) : list T := a :: repeat n_nan k.
  Definition dayblock (a : T) : list T := dayblock_k 23 a.
  Definition filled_k (k : nat) (a : T) (b : list T) : Prop :=
    length b = S k /\
    if n_isnan a then Forall (fun x => n_isnan x = true) b else b = repeat a (S k).
  Definition filled (a : T) (b : list T) : Prop :=
    length b = 24%nat /\
    if n_isnan a then Forall (fun x => n_isnan x = true) b else b = repeat a 24.

  Lemma ffill_nans k v c n : n_isnan v = true \/ (k <= c)%nat ->
    exists out c', (forall r, ffill_from k v c (repeat n_nan n ++ r) = out ++ ffill_from k v c' r) /\
      length out = n /\ Forall (fun x => n_isnan x = true) out /\ (n_isnan v = true \/ (k <= c')%nat).
  Proof.
    revert c. induction n as [|n IH]; intros c H.
    - exists [], c. repeat split; [constructor|exact H].
    - destruct (Nat.leb_spec k c) as [Hc|Hc].
      + destruct (IH c H) as (out & c' & E & L & F & G). exists (n_nan :: out), c'.
        repeat split; [|cbn; lia|constructor; assumption|exact G].
        intro r. cbn [repeat app ffill_from]. rewrite nan_is_nan.
        destruct (Nat.leb_spec k c); [|lia]. rewrite E. reflexivity.
      + destruct H as [H|H]; [|lia].
        destruct (IH (S c) (or_introl H)) as (out & c' & E & L & F & G). exists (v :: out), c'.
        repeat split; [|cbn; lia|constructor; assumption|exact G].
        intro r. cbn [repeat app ffill_from]. rewrite nan_is_nan.
        destruct (Nat.leb_spec k c); [lia|]. rewrite E. reflexivity.
  Qed.
  Lemma ffill_run k v n : forall c r, (c + n <= k)%nat ->
    ffill_from k v c (repeat n_nan n ++ r) = repeat v n ++ ffill_from k v (c + n) r.
  Proof.
    induction n as [|n IH]; intros c r H.
    - rewrite Nat.add_0_r. reflexivity.
    - cbn [repeat app ffill_from]. rewrite nan_is_nan. destruct (Nat.leb_spec k c); [lia|].
      rewrite IH by lia. replace (S c + n)%nat with (c + S n)%nat by lia. reflexivity.
  Qed.

  Lemma ffill_blocks_k k (l : list T) : forall v c, n_isnan v = true \/ (k <= c)%nat ->
    exists outs, ffill_from k v c (concat (map (dayblock_k k) l)) = concat outs /\ Forall2 (filled_k k) l outs.
  Proof.
    induction l as [|a l IH]; intros v c H.
    - exists []. split; [reflexivity|constructor].
    - cbn [map concat]. unfold dayblock_k at 1. cbn [app]. destruct (n_isnan a) eqn:Ea.
      + destruct (Nat.leb_spec k c) as [Hc|Hc].
        * destruct (ffill_nans k v c k H) as (out & c' & E & L & F & G).
          destruct (IH v c' G) as (outs & Eo & Fo). exists ((a :: out) :: outs). split.
          -- cbn [ffill_from]. rewrite Ea. destruct (Nat.leb_spec k c); [|lia]. rewrite E, Eo. reflexivity.
          -- constructor; [|exact Fo]. split; [cbn; lia|]. rewrite Ea. constructor; assumption.
        * destruct H as [H|H]; [|lia].
          destruct (ffill_nans k v (S c) k (or_introl H)) as (out & c' & E & L & F & G).
          destruct (IH v c' G) as (outs & Eo & Fo). exists ((v :: out) :: outs). split.
          -- cbn [ffill_from]. rewrite Ea. destruct (Nat.leb_spec k c); [lia|]. rewrite E, Eo. reflexivity.
          -- constructor; [|exact Fo]. split; [cbn; lia|]. rewrite Ea. constructor; assumption.
      + destruct (IH a k (or_intror (le_n k))) as (outs & Eo & Fo).
        exists ((a :: repeat a k) :: outs). split.
        * cbn [ffill_from]. rewrite Ea. rewrite ffill_run by lia. cbn [Nat.add]. rewrite Eo. reflexivity.
        * constructor; [|exact Fo]. split; [cbn; rewrite repeat_length; reflexivity|]. rewrite Ea. reflexivity.
  Qed.

  Lemma ffill_blocks (l : list T) :
    exists outs, ffill 23 (concat (map dayblock l)) = concat outs /\ Forall2 filled l outs.
  Proof. exact (ffill_blocks_k 23 l n_nan 0 (or_introl nan_is_nan)). Qed.

  (** ** the hourly frame of consecutive days *)
  Definition day_rows (d : Z) (a : T) : series T := combine (grid (d * us_day) us_hour 24) (dayblock a).

  Lemma grid_hours_days d0 n :
    hours_index d0 n = concat (map (fun i => grid ((d0 + Z.of_nat i) * us_day) us_hour 24) (seq 0 n)).
  Proof.
    unfold hours_index. revert d0. induction n as [|n IH]; intro d0; [reflexivity|].
    replace (24 * S n)%nat with (24 + 24 * n)%nat by lia. rewrite grid_app.
    cbn [seq map concat]. f_equal; [f_equal; lia|].
    replace (d0 * us_day + Z.of_nat 24 * us_hour) with ((d0 + 1) * us_day) by (unfold us_day, us_hour; lia).
    rewrite IH, <- seq_shift, map_map. f_equal. apply map_ext. intro i. f_equal. lia.
  Qed.

  Lemma lookup_daily d0 (amounts : list T) i a j : nth_error amounts i = Some a -> (j < 24)%nat ->
    lookup ((d0 + Z.of_nat i) * us_day + Z.of_nat j * us_hour) (daily d0 amounts)
    = if Nat.eqb j 0 then Some a else None.
  Proof.
    revert d0 i j. induction amounts as [|x amounts IH]; intros d0 i j H Hj; [destruct i; discriminate|].
    unfold daily, daily_index. cbn [length]. rewrite grid_S. cbn [combine lookup].
    replace (d0 * us_day + us_day) with ((d0 + 1) * us_day) by lia.
    fold (daily_index (d0 + 1) (length amounts)). fold (daily (d0 + 1) amounts).
    destruct i as [|i].
    - injection H as <-. destruct (Nat.eqb_spec j 0) as [->|Hj0].
      + destruct (Z.eqb_spec (d0 * us_day) ((d0 + Z.of_nat 0) * us_day + Z.of_nat 0 * us_hour)); [reflexivity|].
        exfalso. lia.
      + destruct (Z.eqb_spec (d0 * us_day) ((d0 + Z.of_nat 0) * us_day + Z.of_nat j * us_hour)).
        { exfalso. unfold us_hour in *. lia. }
        assert (G : forall k, lookup k (daily (d0 + 1) amounts) <> None ->
                    exists i, k = (d0 + 1) * us_day + Z.of_nat i * us_day).
        { intros k Hk.
          assert (Hin : forall (s : series T), lookup k s <> None -> In k (map fst s)).
          { induction s as [|[u w] s IHs]; cbn; [congruence|].
            destruct (Z.eqb_spec u k); [left; assumption|intro; right; auto]. }
          specialize (Hin _ Hk). rewrite daily_fst in Hin. unfold daily_index in Hin.
          apply grid_In in Hin. destruct Hin as (i & _ & E). eauto. }
        destruct (lookup _ _) eqn:El; [|reflexivity]. exfalso.
        destruct (G _ ltac:(rewrite El; discriminate)) as (i & E). unfold us_day, us_hour in E. lia.
    - cbn [nth_error] in H.
      destruct (Z.eqb_spec (d0 * us_day) ((d0 + Z.of_nat (S i)) * us_day + Z.of_nat j * us_hour)).
      { exfalso. unfold us_day, us_hour in *. lia. }
      rewrite <- (IH (d0 + 1) i j H Hj). f_equal. lia.
  Qed.

  Lemma daily_no_dup d0 (amounts : list T) : has_dup (index (daily d0 amounts)) = false.
  Proof.
    unfold index. rewrite daily_fst. unfold daily_index.
    assert (G : forall n t, has_dup (grid t us_day n) = false).
    { induction n as [|n IH]; intro t; [reflexivity|]. rewrite grid_S. cbn [has_dup]. rewrite IH, orb_false_r.
      apply not_true_iff_false. unfold mem. rewrite existsb_exists. intros (x & Hx & E).
      apply Z.eqb_eq in E. apply grid_In in Hx. destruct Hx as (i & _ & ->). unfold us_day in E. lia. }
    apply G.
  Qed.

  Lemma reindex_daily d0 (amounts : list T) :
    reindex (daily d0 amounts) (hours_index d0 (length amounts))
    = Ok (concat (map (fun i => day_rows (d0 + Z.of_nat i) (nth i amounts n_nan)) (seq 0 (length amounts)))).
  Proof.
    unfold reindex. rewrite daily_no_dup. f_equal. rewrite grid_hours_days, concat_map, map_map.
    f_equal. apply map_ext_in. intros i Hi. apply in_seq in Hi.
    assert (Hn : nth_error amounts i = Some (nth i amounts n_nan)) by (apply nth_error_nth'; lia).
    unfold day_rows. unfold grid. rewrite map_map.
    assert (G : forall j, (j < 24)%nat ->
      lookup ((d0 + Z.of_nat i) * us_day + Z.of_nat j * us_hour) (daily d0 amounts)
      = if Nat.eqb j 0 then Some (nth i amounts n_nan) else None)
      by (intros j Hj; apply lookup_daily; assumption).
    cbn [seq map dayblock dayblock_k repeat combine].
    repeat (rewrite G by lia). reflexivity.
  Qed.

  Lemma day_rows_dates d a t : In t (map fst (day_rows d a)) -> t / us_day = d.
  Proof.
    unfold day_rows. rewrite map_fst_combine by reflexivity.
    apply grid_day_dates; reflexivity.
  Qed.

  Lemma dom_of_same t d : t / us_day = d -> dom_of t = dom_of_day d.
  Proof.
    intro H. unfold dom_of, date_of. rewrite H. reflexivity.
  Qed.

  Lemma same_key_split k ks1 bs1 ks2 bs2 : length ks1 = length bs1 ->
    same_key k (ks1 ++ ks2) (bs1 ++ bs2) = same_key k ks1 bs1 ++ same_key k ks2 bs2.
  Proof.
    revert bs1; induction ks1 as [|x ks1 IH]; intros [|b bs1] H; try discriminate; [reflexivity|].
    cbn. destruct (x =? k); cbn; [f_equal|]; apply IH; injection H; auto.
  Qed.

  (** the amounts of the days with key k *)
  Fixpoint same_amounts (k : Z) (ks : list Z) (l : list T) : list T :=
    match ks, l with
    | k' :: ks, a :: l => if k' =? k then a :: same_amounts k ks l else same_amounts k ks l
    | _, _ => []
    end.
  Lemma same_amounts_split k ks1 l1 ks2 l2 : length ks1 = length l1 ->
    same_amounts k (ks1 ++ ks2) (l1 ++ l2) = same_amounts k ks1 l1 ++ same_amounts k ks2 l2.
  Proof.
    revert l1; induction ks1 as [|x ks1 IH]; intros [|b l1] H; try discriminate; [reflexivity|].
    cbn. destruct (x =? k); cbn; [f_equal|]; apply IH; injection H; auto.
  Qed.

  Lemma same_key_days k ds (l : list T) (ks : list Z) : length ds = length l ->
    same_key k ks (map (fun p => day_rows (fst p) (snd p)) (combine ds l))
    = map dayblock (same_amounts k ks l).
  Proof.
    revert ks l; induction ds as [|d ds IH]; intros ks l H; destruct l as [|a l]; try discriminate.
    - destruct ks; reflexivity.
    - destruct ks as [|k' ks]; [reflexivity|]. cbn [combine map same_key same_amounts fst snd].
      injection H as H. rewrite (IH ks l H). unfold day_rows. rewrite map_snd_combine by reflexivity.
      destruct (k' =? k); reflexivity.
  Qed.

  Lemma Forall2_nth {A B} (P : A -> B -> Prop) la lb i da db : Forall2 P la lb -> (i < length la)%nat ->
    P (nth i la da) (nth i lb db).
  Proof.
    intro F. revert i. induction F; intros [|i] H0; cbn in *; try lia; auto. apply IHF. lia.
  Qed.

  (** every day of the result is [filled] with its own amount *)
  Lemma distribute_days e d0 amounts : amounts <> [] ->
    exists outs : list (list T),
      distribute_equally e (daily d0 amounts) false
      = Ok (combine (hours_index d0 (length amounts)) (concat outs)) /\ Forall2 filled amounts outs.
  Proof.
    intro Hne. set (n := length amounts).
    assert (Hn : exists m, n = S m) by (destruct amounts; [congruence|unfold n; cbn; eauto]).
    destruct Hn as (m & Hm).
    unfold distribute_equally, index. rewrite daily_fst. fold n.
    assert (HI : hourly_index e (daily_index d0 n) = Ok (hours_index d0 n))
      by (unfold hourly_index; rewrite Hm; apply hourly_index_daily).
    rewrite HI. cbn [bind]. unfold n. rewrite reindex_daily. fold n. cbn [bind].
    set (ds := map (fun i => d0 + Z.of_nat i) (seq 0 n)).
    set (bs := map (fun p => day_rows (fst p) (snd p)) (combine ds amounts)).
    set (ks := map dom_of_day ds).
    assert (Lds : length ds = n) by (unfold ds; rewrite map_length, seq_length; reflexivity).
    assert (Lks : length ks = n) by (unfold ks; rewrite map_length; exact Lds).
    assert (Lbs : length bs = n).
    { unfold bs. rewrite map_length, combine_length, Lds. fold n. lia. }
    assert (Hnth : forall i, (i < n)%nat -> nth i bs [] = day_rows (d0 + Z.of_nat i) (nth i amounts n_nan)).
    { intros i Hi. unfold bs.
      set (F := fun p : Z * T => day_rows (fst p) (snd p)).
      rewrite nth_indep with (d' := F (0, n_nan)) by (unfold F; fold bs; rewrite Lbs; exact Hi).
      rewrite (map_nth F), combine_nth by (fold n; exact Lds). unfold F. cbn [fst snd]. f_equal.
      unfold ds. rewrite nth_indep with (d' := d0 + Z.of_nat 0) by (rewrite map_length, seq_length; exact Hi).
      rewrite (map_nth (fun i => d0 + Z.of_nat i)), seq_nth by exact Hi. reflexivity. }
    assert (Ebs : map (fun i => day_rows (d0 + Z.of_nat i) (nth i amounts n_nan)) (seq 0 n) = bs).
    { apply nth_ext with (d := []) (d' := []); rewrite map_length, seq_length; [symmetry; exact Lbs|].
      intros i Hi. rewrite (Hnth i Hi).
      set (F := fun i => day_rows (d0 + Z.of_nat i) (nth i amounts n_nan)).
      rewrite nth_indep with (d' := F 0%nat) by (rewrite map_length, seq_length; exact Hi).
      rewrite (map_nth F), seq_nth by exact Hi. reflexivity. }
    rewrite Ebs.
    assert (BO : blocks_ok dom_of ks bs).
    { unfold bs, ks. clear Ebs Hnth Lbs Lks bs ks. clearbody ds. unfold n in Lds. clear n Hm HI Hne.
      revert ds Lds. induction amounts as [|a l IH]; intros [|d ds] L; try discriminate; [constructor|].
      cbn [map combine fst snd]. constructor; [|apply IH; injection L; auto].
      split; [reflexivity|]. intros t Ht. apply dom_of_same. exact (day_rows_dates d a t Ht). }
    unfold transform.
    rewrite (transform_blocks dom_of (ffill 23) [] [] ks bs (concat bs) (Forall2_nil _) BO).
    cbn [app].
    (* the filled groups *)
    assert (G : forall k, exists outs, ffill 23 (group_values dom_of k (concat bs)) = concat outs /\
                 Forall2 filled (same_amounts k ks amounts) outs).
    { intro k. rewrite (group_values_blocks dom_of k ks bs BO). unfold bs.
      rewrite same_key_days by exact Lds. apply ffill_blocks. }
    assert (D : forall i, (i < n)%nat -> exists b, filled (nth i amounts n_nan) b /\
       map (fun j => nth (24 * length (same_key (nth i ks 0) (firstn i ks) (firstn i bs)) + j)
                      (ffill 23 (group_values dom_of (nth i ks 0) (concat bs))) n_nan) (seq 0 24) = b).
    { intros i Hi. set (k := nth i ks 0). destruct (G k) as (outs & E & F). rewrite E.
      set (c := length (same_key k (firstn i ks) (firstn i bs))).
      assert (Ec : c = length (same_amounts k (firstn i ks) (firstn i amounts))).
      { unfold c, bs. rewrite firstn_map, combine_firstn, same_key_days.
        - rewrite map_length. reflexivity.
        - rewrite !firstn_length. fold n. lia. }
      assert (Es : exists r, same_amounts k ks amounts
                   = same_amounts k (firstn i ks) (firstn i amounts) ++ nth i amounts n_nan :: r).
      { assert (Q : same_amounts k ks amounts
                    = same_amounts k (firstn i ks ++ skipn i ks) (firstn i amounts ++ skipn i amounts))
          by (rewrite !firstn_skipn; reflexivity).
        rewrite Q. rewrite same_amounts_split by (rewrite !firstn_length; fold n; lia).
        eexists. f_equal.
        assert (S1 : forall A (l : list A) d, (i < length l)%nat -> skipn i l = nth i l d :: skipn (S i) l).
        { clear. intros A l d. revert i. induction l as [|x l IH]; intros [|i] H; cbn in *; try lia; [reflexivity|].
          apply IH. lia. }
        rewrite (S1 _ ks 0) by lia. rewrite (S1 _ amounts n_nan) by (fold n; lia).
        fold k. cbn [same_amounts]. rewrite Z.eqb_refl. reflexivity. }
      destruct Es as (r & Es).
      assert (L24 : Forall (fun v => length v = 24%nat) outs).
      { clear - F. induction F as [|a b la lb [L _] F IH]; constructor; assumption. }
      assert (Fi : filled (nth i amounts n_nan) (nth c outs [])).
      { assert (Ei : nth c (same_amounts k ks amounts) n_nan = nth i amounts n_nan).
        { rewrite Es, Ec, app_nth2, Nat.sub_diag by lia. reflexivity. }
        rewrite <- Ei. apply Forall2_nth; [exact F|]. rewrite Es, app_length, Ec. cbn. lia. }
      exists (nth c outs []). split; [exact Fi|].
      destruct Fi as [Lb _].
      apply nth_ext with (d := n_nan) (d' := n_nan); rewrite map_length, seq_length; [symmetry; exact Lb|].
      intros j Hj.
      set (H := fun j => nth (24 * c + j) (concat outs) n_nan).
      rewrite nth_indep with (d' := H 0%nat) by (rewrite map_length, seq_length; exact Hj).
      rewrite (map_nth H), seq_nth by exact Hj. unfold H. cbn [Nat.add].
      apply nth_concat24; assumption. }
    set (V := fun i => map (fun j => nth (24 * length (same_key (nth i ks 0) (firstn i ks) (firstn i bs)) + j)
                      (ffill 23 (group_values dom_of (nth i ks 0) (concat bs))) n_nan) (seq 0 24)) in *.
    exists (map V (seq 0 n)). split.
    - f_equal. rewrite Lbs. rewrite grid_hours_days.
      assert (CC : forall l : list nat, (forall i, In i l -> (i < n)%nat) ->
        concat (map (fun i => combine (map fst (nth i bs [])) (V i)) l)
        = combine (concat (map (fun i => grid ((d0 + Z.of_nat i) * us_day) us_hour 24) l)) (concat (map V l))).
      { induction l as [|i l IH]; intro H; [reflexivity|]. cbn [map concat].
        rewrite IH by (intros x Hx; apply H; right; exact Hx).
        rewrite combine_app.
        - f_equal. f_equal. rewrite (Hnth i (H i (or_introl eq_refl))). unfold day_rows.
          apply map_fst_combine. reflexivity.
        - rewrite grid_length. unfold V. rewrite map_length, seq_length. reflexivity. }
      apply CC. intros i Hi. apply in_seq in Hi. lia.
    - assert (EA : amounts = map (fun i => nth i amounts n_nan) (seq 0 n)).
      { apply nth_ext with (d := n_nan) (d' := n_nan); [rewrite map_length, seq_length; reflexivity|].
        intros i Hi. set (F := fun i => nth i amounts n_nan).
        rewrite nth_indep with (l := map F _) (d' := F 0%nat) by (rewrite map_length, seq_length; exact Hi).
        rewrite (map_nth F), seq_nth by exact Hi. reflexivity. }
      rewrite EA at 1.
      assert (GG : forall l : list nat, (forall i, In i l -> (i < n)%nat) ->
                   Forall2 filled (map (fun i => nth i amounts n_nan) l) (map V l)).
      { induction l as [|i l IH]; intro H; [constructor|]. cbn [map]. constructor.
        - destruct (D i (H i (or_introl eq_refl))) as (b & Fb & Eb). fold (V i) in Eb. rewrite Eb. exact Fb.
        - apply IH. intros x Hx; apply H; right; exact Hx. }
      apply GG. intros i Hi. apply in_seq in Hi. lia.
  Qed.

  Lemma chunk_concat24 {A} (l : list (list A)) i : Forall (fun v => length v = 24%nat) l ->
    (i < length l)%nat -> chunk 24 i (concat l) = nth i l [].
  Proof.
    intro F. unfold chunk. revert i. induction F as [|v l Hv F IH]; intros i Hi; [cbn in Hi; lia|].
    cbn [concat]. destruct i as [|i].
    - rewrite Nat.mul_0_r. cbn [skipn nth]. rewrite firstn_app, Hv, Nat.sub_diag, firstn_O, app_nil_r.
      apply firstn_all2. lia.
    - cbn [nth]. rewrite skipn_app, skipn_all2 by lia. cbn [app].
      replace (24 * S i - length v)%nat with (24 * i)%nat by lia. apply IH. cbn in Hi. lia.
  Qed.

  (** the observable statement *)
  Lemma distribute_own_day e d0 (amounts : list T) : amounts <> [] ->
    exists out, distribute_equally e (daily d0 amounts) false = Ok out /\
      map fst out = hours_index d0 (length amounts) /\
      forall i a, nth_error amounts i = Some a ->
        length (values_on (d0 + Z.of_nat i) out) = 24%nat /\
        if n_isnan a then Forall (fun x => n_isnan x = true) (values_on (d0 + Z.of_nat i) out)
        else values_on (d0 + Z.of_nat i) out = repeat a 24.
  Proof.
    intro Hne. destruct (distribute_days e d0 amounts Hne) as (outs & E & F).
    assert (L24 : Forall (fun v => length v = 24%nat) outs).
    { clear - F. induction F as [|a b la lb [L _] F IH]; constructor; assumption. }
    assert (Lo : length outs = length amounts) by (clear - F; induction F; cbn; congruence).
    assert (Lc : length (concat outs) = (24 * length amounts)%nat) by (rewrite concat_len24, Lo by exact L24; reflexivity).
    eexists. split; [exact E|]. split.
    { apply map_fst_combine. unfold hours_index. rewrite grid_length, Lc. reflexivity. }
    intros i a Hi. assert (Hi' : (i < length amounts)%nat) by (apply nth_error_Some; congruence).
    rewrite values_on_hours by assumption. rewrite chunk_concat24 by (try exact L24; lia).
    assert (Ha : nth i amounts n_nan = a) by (apply nth_error_nth; exact Hi).
    rewrite <- Ha. exact (Forall2_nth filled amounts outs i n_nan [] F Hi').
  Qed.

  Lemma values_on_map {A B} (f : A -> B) d (s : list (Z * A)) :
    values_on d (map (fun p => (fst p, f (snd p))) s) = map f (values_on d s).
  Proof.
    unfold values_on. induction s as [|[t v] s IH]; [reflexivity|].
    cbn [map filter fst snd]. destruct (t / us_day =? d); cbn [map snd]; [f_equal|]; exact IH.
  Qed.

  Lemma map_repeat {A B} (f : A -> B) x m : map f (repeat x m) = repeat (f x) m.
  Proof. induction m; cbn; congruence. Qed.

  Lemma distribute_divided e d0 (amounts : list T) : amounts <> [] ->
    exists out, distribute_equally e (daily d0 amounts) true = Ok out /\
      map fst out = hours_index d0 (length amounts) /\
      forall i a, nth_error amounts i = Some a ->
        length (values_on (d0 + Z.of_nat i) out) = 24%nat /\
        if n_isnan a
        then exists xs, Forall (fun x => n_isnan x = true) xs /\
               values_on (d0 + Z.of_nat i) out = map (fun x => x / n_ofZ 24)%num xs
        else values_on (d0 + Z.of_nat i) out = repeat (a / n_ofZ 24)%num 24.
  Proof.
    intro Hne. destruct (distribute_own_day e d0 amounts Hne) as (out & E & I & D).
    assert (E2 : distribute_equally e (daily d0 amounts) true
                 = Ok (map (fun p => (fst p, (snd p / n_ofZ 24)%num)) out)).
    { unfold distribute_equally in E |- *. destruct (hourly_index e _); cbn [bind] in *; [|discriminate].
      destruct (reindex _ _); cbn [bind] in *; [|discriminate].
      assert (transform dom_of (ffill 23) a0 = out) as -> by congruence. reflexivity. }
    eexists. split; [exact E2|]. split; [rewrite map_map; exact I|].
    intros i a Hi. destruct (D i a Hi) as [L V].
    rewrite (values_on_map (fun v => v / n_ofZ 24)%num), map_length. split; [exact L|].
    destruct (n_isnan a).
    - eexists. split; [exact V|reflexivity].
    - rewrite V. apply (map_repeat (fun v => v / n_ofZ 24)%num).
  Qed.
End Generic.
