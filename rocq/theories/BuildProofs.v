(** seasonal_subset and build_casc (heap). *)
From Coq Require Import ZArith List Bool Reals Lra Lia Sorted Permutation.
From Verif Require Import Py Num Cal Series SpecBase CascadeModel AggModel IndexProofs SpecBuild.
Import ListNotations.
Open Scope Z_scope.

(** ** seasonal_subset *)
Section Season.
  Context {T : Type} {N : Num T}.

  Lemma insert_row_perm p (l : series T) : Permutation (insert_row p l) (p :: l).
  Proof.
    induction l as [|q l IH]; [reflexivity|]. cbn. destruct (fst p <=? fst q); [reflexivity|].
    rewrite IH. apply perm_swap.
  Qed.
  Lemma sort_perm (l : series T) : Permutation (sort_index l) l.
  Proof. induction l as [|p l IH]; [reflexivity|]. cbn. rewrite insert_row_perm, IH. reflexivity. Qed.
  Definition le_row (p q : Z * T) : Prop := fst p <= fst q.
  Lemma insert_row_sorted p (l : series T) : StronglySorted le_row l -> StronglySorted le_row (insert_row p l).
  Proof.
    induction 1 as [|q l SS IH F]; cbn; [repeat constructor|].
    destruct (Z.leb_spec (fst p) (fst q)).
    - constructor; [constructor; assumption|]. constructor; [exact H|]. eapply Forall_impl; [|exact F].
      unfold le_row. intros; lia.
    - constructor; [exact IH|]. apply Forall_forall. intros x Hx.
      apply (Permutation_in _ (insert_row_perm p l)) in Hx. destruct Hx as [<-|Hx]; [unfold le_row; lia|].
      rewrite Forall_forall in F. apply F, Hx.
  Qed.
  Lemma sort_sorted (l : series T) : StronglySorted le_row (sort_index l).
  Proof. induction l; [constructor|]. cbn. apply insert_row_sorted. assumption. Qed.

  Lemma sorted_perm_eq (l1 l2 : series T) : StronglySorted le_row l1 ->
    StronglySorted Z.lt (map fst l2) -> Permutation l1 l2 -> l1 = l2.
  Proof.
    intro S1. revert l2. induction S1 as [|p l1 S1 IH F1]; intros l2 S2 PM.
    - apply Permutation_nil in PM. subst. reflexivity.
    - destruct l2 as [|q l2]; [apply Permutation_sym, Permutation_nil in PM; discriminate|].
      cbn [map] in S2. inversion S2 as [|? ? S2' F2]; subst. rewrite Forall_forall in F1, F2.
      assert (p = q) as <-.
      { assert (Hp : In p (q :: l2)) by (apply (Permutation_in _ PM); left; reflexivity).
        assert (Hq : In q (p :: l1)) by (apply (Permutation_in _ (Permutation_sym PM)); left; reflexivity).
        destruct Hp as [->|Hp]; [reflexivity|]. destruct Hq as [->|Hq]; [reflexivity|].
        specialize (F1 _ Hq). assert (fst q < fst p) by (apply F2, in_map, Hp). unfold le_row in F1. lia. }
      f_equal. apply IH; [exact S2'|]. apply (Permutation_cons_inv PM).
  Qed.

  Lemma filter_split {A} (P Q : A -> bool) l : (forall x, P x && Q x = false) ->
    Permutation (filter P l ++ filter Q l) (filter (fun x => P x || Q x) l).
  Proof.
    intro D. induction l as [|a l IH]; [reflexivity|]. cbn [filter]. specialize (D a).
    destruct (P a), (Q a); try discriminate; cbn [orb app].
    - constructor. exact IH.
    - rewrite <- Permutation_middle. constructor. exact IH.
    - exact IH.
  Qed.

  Lemma months_perm (s : series T) ms : NoDup ms ->
    Permutation (flat_map (fun m => filter (fun p => month_of (fst p) =? m) s) ms)
                (filter (fun p => mem (month_of (fst p)) ms) s).
  Proof.
    induction 1 as [|m ms NI ND IH]; cbn [flat_map].
    - rewrite (filter_ext _ (fun _ => false)) by reflexivity. clear. induction s; [constructor|exact IHs].
    - rewrite IH. rewrite filter_split.
      + erewrite filter_ext; [reflexivity|]. intro p. cbn [mem existsb]. unfold mem.
        reflexivity.
      + intro p. destruct (Z.eqb_spec (month_of (fst p)) m) as [->|]; [|reflexivity]. cbn [andb].
        apply not_true_iff_false. rewrite mem_In. exact NI.
  Qed.

  Lemma filter_sorted_rows f (s : series T) : StronglySorted Z.lt (map fst s) -> StronglySorted Z.lt (map fst (filter f s)).
  Proof.
    induction s as [|p s IH]; intro H; [constructor|]. cbn [map] in H. inversion H as [|? ? S F]; subst. cbn [filter].
    destruct (f p); [|apply IH, S]. cbn [map]. constructor; [apply IH, S|]. rewrite Forall_forall in *.
    intros x Hx. apply in_map_iff in Hx. destruct Hx as (q & <- & Hq). apply filter_In in Hq. apply F, in_map, Hq.
  Qed.

  Lemma seasonal_exact (s : series T) ms : ms <> [] -> NoDup ms -> StronglySorted Z.lt (map fst s) ->
    seasonal_subset s (Some ms) = Ok (filter (fun p => mem (month_of (fst p)) ms) s).
  Proof.
    intros NE ND SS. unfold seasonal_subset. destruct ms as [|m ms]; [congruence|]. f_equal.
    apply sorted_perm_eq; [apply sort_sorted|apply filter_sorted_rows, SS|].
    rewrite sort_perm. apply months_perm, ND.
  Qed.

  Lemma seasonal_all (s : series T) : StronglySorted Z.lt (map fst s) ->
    seasonal_subset s None = Ok s.
  Proof.
    intro SS. transitivity (seasonal_subset s (Some (map Z.of_nat (seq 1 12)))); [reflexivity|].
    rewrite seasonal_exact.
    - f_equal. rewrite (filter_ext_in _ (fun _ => true)); [clear; induction s as [|p s IH]; [reflexivity|cbn; rewrite IH; reflexivity]|].
      intros p _. pose proof (month_range (date_of (fst p))) as MR. apply mem_In. apply in_map_iff.
      exists (Z.to_nat (month_of (fst p))). unfold month_of. split; [lia|]. apply in_seq. lia.
    - discriminate.
    - apply FinFun.Injective_map_NoDup; [intros a b; lia|apply seq_NoDup].
    - exact SS.
  Qed.

  Lemma seasonal_partition (s : series T) gs : Permutation (concat gs) (map Z.of_nat (seq 1 12)) ->
    Permutation (flat_map (fun g => filter (fun p => mem (month_of (fst p)) g) s) gs) s.
  Proof.
    intro PM.
    assert (ND : NoDup (concat gs)).
    { apply (Permutation_NoDup (Permutation_sym PM)).
      apply FinFun.Injective_map_NoDup; [intros a b; lia|apply seq_NoDup]. }
    assert (G : Permutation (flat_map (fun g => filter (fun p => mem (month_of (fst p)) g) s) gs)
                  (filter (fun p => mem (month_of (fst p)) (concat gs)) s)).
    { clear PM. induction gs as [|g gs IH]; cbn [flat_map concat].
      - rewrite (filter_ext _ (fun _ => false)) by reflexivity. clear. induction s; [constructor|exact IHs].
      - cbn [concat] in ND. rewrite IH.
        + rewrite filter_split.
          * erewrite filter_ext; [reflexivity|]. intro p. unfold mem. rewrite existsb_app. reflexivity.
          * intro p. destruct (mem (month_of (fst p)) g) eqn:E1; [|reflexivity]. cbn [andb].
            apply not_true_iff_false. rewrite mem_In. apply mem_In in E1. clear - ND E1. intro H.
            induction g as [|x g IH]; [destruct E1|]. cbn [app] in ND. inversion ND as [|? ? NI ND']; subst.
            destruct E1 as [->|E1]; [apply NI, in_or_app; right; exact H|apply IH; assumption].
        + clear - ND. induction g as [|x g IH]; [exact ND|]. inversion ND; subst. apply IH. assumption. }
    rewrite G. rewrite (filter_ext_in _ (fun _ => true)).
    - clear. induction s as [|p s IH]; [constructor|]. cbn. constructor. exact IH.
    - intros p _. apply mem_In. apply (Permutation_in _ (Permutation_sym PM)). apply in_map_iff.
      pose proof (month_range (date_of (fst p))) as MR.
      exists (Z.to_nat (month_of (fst p))). unfold month_of. split; [lia|]. apply in_seq. lia.
  Qed.
End Season.

(** ** the heap *)
Section Heap.
  Context {T : Type} {N : Num T}.

  Definition avoids (o : obj T) (w : nat) : Prop :=
    (o01 o <> w /\ o10 o <> w /\ oxx o <> w /\ owxx o <> w /\ othr o <> w)%nat.
  (** nobody else refers to the weight array of [total], nor does it use it twice *)
  Definition sep (h : heap T) (total : nat) : Prop :=
    (forall n, (n < length (objs h))%nat -> n <> total -> avoids (get_obj h n) (owxx (get_obj h total))) /\
    othr (get_obj h total) <> owxx (get_obj h total).

  Lemma upd_length {A} n (x : A) l : length (upd n x l) = length l.
  Proof. revert n. induction l as [|a l IH]; intros [|n]; cbn; auto. Qed.
  Lemma upd_nth_same {A} n (x : A) l d : (n < length l)%nat -> nth n (upd n x l) d = x.
  Proof. revert n. induction l as [|a l IH]; intros [|n] H; cbn in *; try lia; auto. apply IH. lia. Qed.
  Lemma upd_nth_other {A} n m (x : A) l d : n <> m -> nth m (upd n x l) d = nth m l d.
  Proof. revert n m. induction l as [|a l IH]; intros [|n] [|m] H; cbn; auto; try lia. Qed.
  Lemma nth_app_old {A} (l l' : list A) n d : (n < length l)%nat -> nth n (l ++ l') d = nth n l d.
  Proof. apply app_nth1. Qed.

  (** value of a record of references *)
  Definition read_obj (h : heap T) (o : obj T) : casc T :=
    {| p01 := get2 h (o01 o); p10 := get2 h (o10 o); pxx := get2 h (oxx o); wxx := get3 h (owxx o);
       threshold := get1 h (othr o); percentile := operc o |}.
  Lemma read_casc_obj h n : read_casc h n = read_obj h (get_obj h n).
  Proof. reflexivity. Qed.

  (** arrays only grow or change at one place: reading is stable *)
  Lemma read_stable h h' o : refs_ok h o ->
    (forall k, In k [o01 o; o10 o; oxx o; owxx o; othr o] -> (k < length (arrs h))%nat ->
       nth k (arrs h') (A1 []) = nth k (arrs h) (A1 [])) ->
    read_obj h' o = read_obj h o.
  Proof.
    intros (A & B & C & D & E) H. unfold read_obj, get2, get3, get1.
    rewrite !H by (cbn; auto 10). reflexivity.
  Qed.

  Definition new_arrs (c : casc T) : list (arr T) := [A2 (p01 c); A2 (p10 c); A2 (pxx c); A3 (wxx c)].

  Lemma alloc_eq (h : heap T) c : alloc_casc h c =
    (let n := length (arrs h) in
     {| arrs := arrs h ++ [A2 (p01 c); A2 (p10 c); A2 (pxx c); A3 (wxx c); A1 (threshold c)];
        objs := objs h ++ [{| o01 := n; o10 := (n + 1)%nat; oxx := (n + 2)%nat; owxx := (n + 3)%nat;
                              othr := (n + 4)%nat; operc := percentile c |}] |}, length (objs h)).
  Proof.
    unfold alloc_casc, new_arr, new_obj. cbn [arrs objs]. rewrite !app_length. cbn [length].
    rewrite <- !app_assoc. cbn [app]. f_equal. f_equal. do 2 f_equal. f_equal; lia.
  Qed.
  Lemma nth_new {A} (l : list A) (r : list A) k d : nth (length l + k) (l ++ r) d = nth k r d.
  Proof. rewrite app_nth2 by lia. f_equal. lia. Qed.
  Lemma nth_new0 {A} (l : list A) (r : list A) d : nth (length l) (l ++ r) d = nth 0 r d.
  Proof. rewrite <- (nth_new l r 0 d). f_equal. lia. Qed.

  Lemma alloc_spec (h : heap T) c h' n : wf h -> alloc_casc h c = (h', n) ->
    n = length (objs h) /\ length (objs h') = S (length (objs h)) /\ wf h' /\
    read_casc h' n = c /\
    (forall m, (m < length (objs h))%nat -> get_obj h' m = get_obj h m /\ read_casc h' m = read_casc h m) /\
    (length (arrs h) <= length (arrs h'))%nat /\
    (forall w, (w < length (arrs h))%nat -> avoids (get_obj h' n) w).
  Proof.
    intros W E. rewrite alloc_eq in E. cbv zeta in E. injection E as <- <-.
    set (la := length (arrs h)).
    set (h' := {| arrs := _; objs := _ |}).
    assert (GO : get_obj h' (length (objs h)) = {| o01 := la; o10 := (la + 1)%nat; oxx := (la + 2)%nat; owxx := (la + 3)%nat;
                              othr := (la + 4)%nat; operc := percentile c |}).
    { unfold get_obj, h'. cbn [objs]. rewrite nth_new0. reflexivity. }
    assert (LA : length (arrs h') = (la + 5)%nat) by (unfold h'; cbn [arrs]; rewrite app_length; reflexivity).
    assert (OLD : forall m, (m < length (objs h))%nat -> get_obj h' m = get_obj h m).
    { intros m Hm. unfold get_obj, h'. cbn [objs]. apply nth_app_old, Hm. }
    split; [reflexivity|]. split; [unfold h'; cbn [objs]; rewrite app_length; cbn; lia|]. split; [|split; [|split; [|split]]].
    - intros m Hm. unfold h' in Hm. cbn [objs] in Hm. rewrite app_length in Hm. cbn [length] in Hm.
      destruct (Nat.eq_dec m (length (objs h))) as [->|NE].
      + rewrite GO. unfold refs_ok. rewrite LA. cbn. lia.
      + rewrite OLD by lia. specialize (W m ltac:(lia)). unfold refs_ok in *. rewrite LA. fold la in W. lia.
    - rewrite read_casc_obj, GO. unfold read_obj. cbn [o01 o10 oxx owxx othr operc].
      unfold get2, get3, get1, h'. cbn [arrs]. fold la. unfold la.
      rewrite !nth_new, nth_new0. cbn [nth]. destruct c; reflexivity.
    - intros m Hm. split; [apply OLD, Hm|]. rewrite !read_casc_obj, OLD by exact Hm.
      apply read_stable; [apply W, Hm|]. intros k _ Hk. unfold h'. cbn [arrs]. apply nth_app_old, Hk.
    - lia.
    - intros w Hw. rewrite GO. unfold avoids. cbn. fold la in Hw. lia.
  Qed.

  Lemma copy_spec h n h' cp : wf h -> (n < length (objs h))%nat -> copy_obj h n = (h', cp) ->
    cp = length (objs h) /\ length (objs h') = S (length (objs h)) /\ wf h' /\ arrs h' = arrs h /\
    get_obj h' cp = get_obj h n /\
    (forall m, (m < length (objs h))%nat -> get_obj h' m = get_obj h m) /\
    (forall m, (m < length (objs h))%nat -> read_casc h' m = read_casc h m) /\ read_casc h' cp = read_casc h n.
  Proof.
    intros W Hn E. unfold copy_obj, new_obj in E. injection E as <- <-.
    set (h' := {| arrs := _; objs := _ |}).
    assert (GO : get_obj h' (length (objs h)) = get_obj h n) by (unfold get_obj at 1, h'; cbn [objs]; rewrite nth_new0; reflexivity).
    assert (OLD : forall m, (m < length (objs h))%nat -> get_obj h' m = get_obj h m).
    { intros m Hm. unfold get_obj, h'. cbn [objs]. apply nth_app_old, Hm. }
    split; [reflexivity|]. split; [unfold h'; cbn [objs]; rewrite app_length; cbn; lia|]. split; [|split; [reflexivity|split; [exact GO|split; [exact OLD|split]]]].
    - intros m Hm. unfold h' in Hm. cbn [objs] in Hm. rewrite app_length in Hm. cbn [length] in Hm.
      destruct (Nat.eq_dec m (length (objs h))) as [->|NE].
      + rewrite GO. apply (W n Hn).
      + rewrite OLD by lia. apply (W m). lia.
    - intros m Hm. rewrite !read_casc_obj, OLD by exact Hm. reflexivity.
    - rewrite !read_casc_obj, GO. reflexivity.
  Qed.

  Lemma mul_spec h n f : wf h -> (n < length (objs h))%nat ->
    let h' := heap_mul h n f in
    length (objs h') = length (objs h) /\ wf h' /\ (length (arrs h) <= length (arrs h'))%nat /\
    read_casc h' n = casc_mul (read_casc h n) f /\
    (forall m, m <> n -> get_obj h' m = get_obj h m) /\
    (forall m, (m < length (objs h))%nat -> m <> n -> read_casc h' m = read_casc h m) /\
    othr (get_obj h' n) = othr (get_obj h n) /\
    (forall w, (w < length (arrs h))%nat -> w <> othr (get_obj h n) -> avoids (get_obj h' n) w) /\
    (length (arrs h) <= owxx (get_obj h' n))%nat.
  Proof.
    intros W Hn h'. subst h'. unfold heap_mul, new_arr, set_obj. cbn [arrs objs].
    set (c := casc_mul (read_casc h n) f). set (o := get_obj h n).
    rewrite !app_length. cbn [length]. rewrite <- !app_assoc. cbn [app].
    set (la := length (arrs h)). set (h' := {| arrs := _; objs := _ |}).
    assert (LA : length (arrs h') = (la + 4)%nat) by (unfold h'; cbn [arrs]; rewrite app_length; reflexivity).
    set (o' := {| o01 := la; o10 := _; oxx := _; owxx := _; othr := othr o; operc := operc o |}) in h'.
    assert (GO : get_obj h' n = o') by (unfold get_obj, h'; cbn [objs]; apply upd_nth_same, Hn).
    assert (OLD : forall m, m <> n -> get_obj h' m = get_obj h m).
    { intros m Hm. unfold get_obj, h'. cbn [objs]. apply upd_nth_other. auto. }
    assert (Wn := W n Hn). fold o in Wn. unfold refs_ok in Wn. fold la in Wn.
    split; [unfold h'; cbn [objs]; apply upd_length|]. split; [|split; [lia|split; [|split; [exact OLD|split; [|split; [|split]]]]]].
    - intros m Hm. unfold h' in Hm. cbn [objs] in Hm. rewrite upd_length in Hm.
      destruct (Nat.eq_dec m n) as [->|NE].
      + rewrite GO. unfold refs_ok. rewrite LA. cbn. lia.
      + rewrite OLD by exact NE. specialize (W m Hm). unfold refs_ok in *. rewrite LA. fold la in W. lia.
    - rewrite read_casc_obj, GO. unfold read_obj, o'. cbn [o01 o10 oxx owxx othr operc].
      unfold get2, get3, get1, h'. cbn [arrs]. unfold la. rewrite !nth_new0.
      replace (length (arrs h) + 1 + 1)%nat with (length (arrs h) + 2)%nat by lia.
      replace (length (arrs h) + 2 + 1)%nat with (length (arrs h) + 3)%nat by lia.
      rewrite !nth_new, (nth_app_old _ _ (othr o)) by lia. reflexivity.
    - intros m Hm NE. rewrite !read_casc_obj, OLD by exact NE.
      apply read_stable; [apply W, Hm|]. intros k _ Hk. unfold h'. cbn [arrs]. apply nth_app_old, Hk.
    - rewrite GO. reflexivity.
    - intros w Hw Hne. rewrite GO. unfold avoids, o'. cbn. fold o in Hne. fold la in Hw. lia.
    - rewrite GO. unfold o'. cbn. lia.
  Qed.

  Lemma add_spec h n q : wf h -> (n < length (objs h))%nat -> sep h n ->
    let h' := heap_add h n q in
    length (objs h') = length (objs h) /\ wf h' /\ (length (arrs h) <= length (arrs h'))%nat /\
    read_casc h' n = casc_add (read_casc h n) (read_casc h q) /\
    (forall m, m <> n -> get_obj h' m = get_obj h m) /\
    (forall m, (m < length (objs h))%nat -> m <> n -> read_casc h' m = read_casc h m) /\
    sep h' n.
  Proof.
    intros W Hn [S1 S2] h'. subst h'. unfold heap_add, new_arr, set_obj, set_arr. cbn [arrs objs].
    set (c := casc_add (read_casc h n) (read_casc h q)). set (o := get_obj h n) in *.
    rewrite !app_length. cbn [length]. rewrite <- !app_assoc. cbn [app].
    set (la := length (arrs h)). set (h' := {| arrs := _; objs := _ |}).
    assert (Wn := W n Hn). fold o in Wn. unfold refs_ok in Wn. fold la in Wn.
    assert (LA : length (arrs h') = (la + 3)%nat) by (unfold h'; cbn [arrs]; rewrite upd_length, app_length; reflexivity).
    set (o' := {| o01 := la; o10 := _; oxx := _; owxx := owxx o; othr := othr o; operc := operc o |}) in h'.
    assert (GO : get_obj h' n = o') by (unfold get_obj, h'; cbn [objs]; apply upd_nth_same, Hn).
    assert (OLD : forall m, m <> n -> get_obj h' m = get_obj h m).
    { intros m Hm. unfold get_obj, h'. cbn [objs]. apply upd_nth_other. auto. }
    split; [unfold h'; cbn [objs]; apply upd_length|]. split; [|split; [rewrite ?upd_length, ?app_length; lia|split; [|split; [exact OLD|split]]]].
    - intros m Hm. unfold h' in Hm. cbn [objs] in Hm. rewrite upd_length in Hm.
      destruct (Nat.eq_dec m n) as [->|NE].
      + rewrite GO. unfold refs_ok. rewrite LA. cbn. lia.
      + rewrite OLD by exact NE. specialize (W m Hm). unfold refs_ok in *. rewrite LA. fold la in W. lia.
    - rewrite read_casc_obj, GO. unfold read_obj, o'. cbn [o01 o10 oxx owxx othr operc].
      unfold get2, get3, get1, h'. cbn [arrs].
      rewrite (upd_nth_same (owxx o)) by (rewrite app_length; cbn; lia).
      rewrite !(upd_nth_other (owxx o)) by lia. unfold la.
      rewrite !nth_new0.
      replace (length (arrs h) + 1 + 1)%nat with (length (arrs h) + 2)%nat by lia.
      rewrite !nth_new, (nth_app_old _ _ (othr o)) by lia. reflexivity.
    - intros m Hm NE. rewrite !read_casc_obj, OLD by exact NE.
      apply read_stable; [apply W, Hm|]. intros k Hk Hl. unfold h'. cbn [arrs].
      specialize (S1 m Hm NE). unfold avoids in S1. cbn in Hk.
      rewrite upd_nth_other by intuition congruence. apply nth_app_old, Hl.
    - split.
      + intros m Hm NE. unfold h' in Hm. cbn [objs] in Hm. rewrite upd_length in Hm.
        rewrite OLD by exact NE. rewrite GO. cbn [owxx o']. apply S1; assumption.
      + rewrite GO. cbn. exact S2.
  Qed.

  (** ** the level loop *)
  Definition add_level (acc : casc T) (l : casc T * nat) : casc T :=
    casc_add acc (casc_mul (fst l) (n_ofZ (Z.of_nat (snd l)))).

  Lemma agg_threshold pct perc (s : series T) c v : aggregate_precipitation pct perc s = Ok (c, v) ->
    exists t0, threshold c = [t0].
  Proof.
    unfold aggregate_precipitation. intro H. apply bind_Ok in H. destruct H as (m & _ & H).
    apply bind_Ok in H. destruct H as (vb & _ & H).
    destruct (examine _ _ _ _ _) as [k|k].
    - injection H as <- _. exists m.
      match goal with |- threshold (if ?b then _ else _) = _ => destruct b end;
      match goal with |- context [if ?b || ?b' || ?b'' then _ else _] => destruct (b || b' || b'') | _ => idtac end;
      try match goal with |- context [if weight_check_fails ?w then _ else _] => destruct (weight_check_fails w) end; reflexivity.
    - injection H as <- _. exists m. reflexivity.
  Qed.

  Lemma levels_ok pct perc total : forall L h vdn copies thr count h' copies' thr' count',
    wf h -> (total < length (objs h))%nat -> sep h total ->
    levels_loop pct perc L h total vdn copies thr count = Ok (h', copies', thr', count') ->
    exists ls new, levels_of pct perc L vdn ls /\ copies' = copies ++ new /\
      map (read_casc h') new = map fst ls /\
      thr' = thr ++ map (fun l => hd n_nan (threshold (fst l))) ls /\
      count' = count + fold_right Z.add 0 (map (fun l => Z.of_nat (snd l)) ls) /\
      read_casc h' total = fold_left add_level ls (read_casc h total) /\
      wf h' /\ sep h' total /\ (length (objs h) <= length (objs h'))%nat /\
      (forall m, (m < length (objs h))%nat -> m <> total -> read_casc h' m = read_casc h m) /\
      Forall (fun k => (length (objs h) <= k < length (objs h'))%nat) new.
  Proof.
    induction L as [|L IH]; intros h vdn copies thr count h' copies' thr' count' W Ht SP H.
    - cbn [levels_loop] in H. injection H as <- <- <- <-. exists [], [].
      rewrite !app_nil_r. cbn [map fold_left fold_right].
      split; [constructor|]. repeat (split; [solve [auto|lia]|]). constructor.
    - cbn [levels_loop] in H. apply bind_Ok in H. destruct H as ([c v1] & Ea & H).
      destruct (alloc_casc h c) as [h1 ci] eqn:E1.
      destruct (alloc_spec h c h1 ci W E1) as (Eci & L1 & W1 & R1 & O1 & A1' & AV1).
      destruct (agg_threshold _ _ _ _ _ Ea) as (t0 & Et). rewrite Et in H. cbn [getitem nth_error bind] in H.
      destruct (copy_obj h1 ci) as [h2 cp] eqn:E2.
      destruct (copy_spec h1 ci h2 cp W1 ltac:(lia) E2) as (Ecp & L2 & W2 & A2' & G2 & O2 & R2 & Rcp).
      pose proof (mul_spec h2 ci (n_ofZ (Z.of_nat (length v1))) W2 ltac:(lia)) as M.
      cbv zeta in M. set (h3 := heap_mul h2 ci (n_ofZ (Z.of_nat (length v1)))) in *.
      destruct M as (L3 & W3 & A3' & R3 & O3 & RO3 & TH3 & AV3 & NW3).
      assert (Wt : refs_ok h (get_obj h total)) by (apply W, Ht).
      assert (GT : get_obj h3 total = get_obj h total).
      { rewrite O3 by lia. rewrite O2 by lia. apply O1. exact Ht. }
      assert (SP3 : sep h3 total).
      { destruct SP as [S1 S2]. split.
        - rewrite GT. intros m Hm NE. destruct (Nat.eq_dec m ci) as [->|NC].
          + apply AV3.
            * destruct Wt as (_ & _ & _ & Hw & _). rewrite A2'. lia.
            * rewrite O2 by lia. destruct (AV1 (owxx (get_obj h total))) as (_ & _ & _ & _ & B); [destruct Wt as (_ & _ & _ & Hw & _); lia|auto].
          + rewrite O3 by exact NC. destruct (Nat.eq_dec m cp) as [->|NP].
            * rewrite G2. apply AV1. destruct Wt as (_ & _ & _ & Hw & _). lia.
            * rewrite O2 by lia. destruct (O1 m ltac:(lia)) as [-> _]. apply S1; [lia|exact NE].
        - rewrite GT. exact S2. }
      pose proof (add_spec h3 total ci W3 ltac:(lia) SP3) as AD. cbv zeta in AD.
      set (h4 := heap_add h3 total ci) in *.
      destruct AD as (L4 & W4 & A4' & R4 & O4 & RO4 & SP4).
      destruct (IH h4 v1 (copies ++ [cp]) (thr ++ [t0]) (count + Z.of_nat (length v1)) h' copies' thr' count' W4 ltac:(lia) SP4 H)
        as (ls & new & LV & EC & RN & ETH & ECT & RT & W5 & SP5 & LO5 & RO5 & FN).
      exists ((c, length v1) :: ls), (cp :: new).
      assert (Rcp4 : read_casc h4 cp = c).
      { rewrite RO4 by lia. rewrite RO3 by lia. rewrite Rcp. exact R1. }
      split; [econstructor; eassumption|]. split; [rewrite EC, <- app_assoc; reflexivity|].
      split; [cbn [map fst]; rewrite RO5, Rcp4, RN by lia; reflexivity|].
      split; [rewrite ETH, <- app_assoc; cbn [map fst app]; rewrite Et; reflexivity|].
      split; [rewrite ECT; cbn [map snd fold_right]; lia|].
      split.
      { rewrite RT. cbn [fold_left]. f_equal. rewrite R4. unfold add_level. cbn [fst snd].
        rewrite R3. rewrite R2 by lia. rewrite R1. f_equal. rewrite RO3 by lia. rewrite R2 by lia. apply O1. exact Ht. }
      split; [exact W5|]. split; [exact SP5|]. split; [lia|]. split.
      + intros m Hm NE. rewrite RO5 by lia. rewrite RO4 by lia. rewrite RO3 by lia. rewrite R2 by lia. apply O1, Hm.
      + constructor; [lia|]. eapply Forall_impl; [|exact FN]. cbv beta. intros; lia.
  Qed.

  (** the statistics of one season *)
  Definition average (perc : T) (ls : list (casc T * nat)) : casc T :=
    let n := fold_right Z.add 0 (map (fun l => Z.of_nat (snd l)) ls) in
    let c := casc_mul (fold_left add_level ls {| p01 := p01 casc_init; p10 := p10 casc_init; pxx := pxx casc_init;
                          wxx := wxx casc_init; threshold := threshold casc_init; percentile := perc |}) (n1 / n_ofZ n)%num in
    {| p01 := p01 c; p10 := p10 c; pxx := pxx c; wxx := wxx c;
       threshold := map (fun l => hd n_nan (threshold (fst l))) ls; percentile := perc |}.

  Definition season_ok (pct : list T -> res T) (perc : T) (L : nat) (avg : bool) (h' : heap T) (lo : nat)
             (sub : series T) (st : season_stats) : Prop :=
    exists ls, levels_of pct perc L sub ls /\
      match st with
      | SOne o => avg = true /\ (lo <= o < length (objs h'))%nat /\ read_casc h' o = average perc ls
      | SList os => avg = false /\ Forall (fun o => (lo <= o < length (objs h'))%nat) os /\ map (read_casc h') os = map fst ls
      end.

  Lemma fold_add_percentile ls : forall c, percentile (fold_left add_level ls c) = percentile c.
  Proof. induction ls as [|l ls IH]; intro c; [reflexivity|]. cbn [fold_left]. rewrite IH. reflexivity. Qed.

  Lemma build_season_ok pct perc L avg h obs months h' obs' st : wf h ->
    build_season pct perc L avg h obs months = Ok (h', obs', st) ->
    obs' = fillna0 obs /\ wf h' /\ (length (objs h) <= length (objs h'))%nat /\
    (forall m, (m < length (objs h))%nat -> read_casc h' m = read_casc h m) /\
    exists sub, seasonal_subset obs months = Ok sub /\ season_ok pct perc L avg h' (length (objs h)) sub st.
  Proof.
    intros W H. unfold build_season in H. apply bind_Ok in H. destruct H as (sub & Es & H).
    destruct (alloc_casc h casc_init) as [h1 total] eqn:E1.
    destruct (alloc_spec h casc_init h1 total W E1) as (Et & L1 & W1 & R1 & O1 & A1' & AV1).
    set (o := get_obj h1 total) in H.
    set (o2 := {| o01 := o01 o; o10 := o10 o; oxx := oxx o; owxx := owxx o; othr := othr o; operc := perc |}) in H.
    set (h2 := set_obj h1 total o2) in H.
    assert (G2 : get_obj h2 total = o2) by (unfold get_obj, h2, set_obj; cbn [objs]; apply upd_nth_same; lia).
    assert (O2 : forall m, m <> total -> get_obj h2 m = get_obj h1 m).
    { intros m Hm. unfold get_obj, h2, set_obj. cbn [objs]. apply upd_nth_other. auto. }
    assert (L2 : length (objs h2) = length (objs h1)) by (unfold h2, set_obj; cbn [objs]; apply upd_length).
    assert (W2 : wf h2).
    { intros m Hm. rewrite L2 in Hm. destruct (Nat.eq_dec m total) as [->|NE].
      - rewrite G2. apply (W1 total). lia.
      - rewrite O2 by exact NE. apply (W1 m Hm). }
    assert (RD2 : read_casc h2 total = {| p01 := p01 casc_init; p10 := p10 casc_init; pxx := pxx casc_init;
                     wxx := wxx casc_init; threshold := threshold casc_init; percentile := perc |}).
    { rewrite read_casc_obj, G2. assert (B := R1). rewrite read_casc_obj in B. fold o in B.
      rewrite <- B. reflexivity. }
    assert (SP2 : sep h2 total).
    { rewrite alloc_eq in E1. cbv zeta in E1. injection E1 as E1 _.
      assert (OW : owxx o = (length (arrs h) + 3)%nat /\ othr o = (length (arrs h) + 4)%nat).
      { unfold o, get_obj. rewrite <- E1. cbn [objs]. rewrite Et, nth_new0. cbn. auto. }
      split.
      - rewrite G2. cbn [owxx o2]. intros m Hm NE. rewrite O2 by exact NE.
        destruct (O1 m ltac:(lia)) as [-> _]. specialize (W m ltac:(lia)). unfold refs_ok in W. unfold avoids. lia.
      - rewrite G2. cbn. lia. }
    apply bind_Ok in H. destruct H as ([[[h3 copies] thr] count] & EL & H).
    destruct (levels_ok pct perc total L h2 sub [] [] 0 h3 copies thr count W2 ltac:(lia) SP2 EL)
      as (ls & new & LV & EC & RN & ETH & ECT & RT & W3 & SP3 & LO3 & RO3 & FN).
    destruct (count =? 0); [discriminate H|].
    pose proof (mul_spec h3 total (n1 / n_ofZ count)%num W3 ltac:(lia)) as M. cbv zeta in M.
    set (h4 := heap_mul h3 total (n1 / n_ofZ count)%num) in *.
    destruct M as (L4 & W4 & A4' & R4 & O4 & RO4 & _). clearbody h4.
    unfold new_arr, set_obj in H. cbn [arrs objs] in H.
    set (o5 := {| o01 := o01 (get_obj h4 total); o10 := _; oxx := _; owxx := _; othr := _; operc := _ |}) in H.
    injection H as <- <- <-. set (h5 := {| arrs := _; objs := _ |}).
    assert (G5 : get_obj h5 total = o5) by (unfold get_obj, h5; cbn [objs]; apply upd_nth_same; lia).
    assert (O5 : forall m, m <> total -> get_obj h5 m = get_obj h4 m).
    { intros m Hm. unfold get_obj, h5. cbn [objs]. apply upd_nth_other. auto. }
    assert (L5 : length (objs h5) = length (objs h4)) by (unfold h5; cbn [objs]; apply upd_length).
    assert (LA5 : length (arrs h5) = S (length (arrs h4))) by (unfold h5; cbn [arrs]; rewrite app_length; cbn; lia).
    assert (ST5 : forall ob, refs_ok h4 ob -> read_obj h5 ob = read_obj h4 ob).
    { intros ob Hob. apply read_stable; [exact Hob|]. intros k _ Hk. unfold h5. cbn [arrs]. apply nth_app_old, Hk. }
    assert (RO5 : forall m, (m < length (objs h4))%nat -> m <> total -> read_casc h5 m = read_casc h4 m).
    { intros m Hm NE. rewrite !read_casc_obj, O5 by exact NE. apply ST5, W4, Hm. }
    split; [reflexivity|]. split; [|split; [lia|split]].
    - intros m Hm. rewrite L5 in Hm. destruct (Nat.eq_dec m total) as [->|NE].
      + rewrite G5. assert (B := W4 total Hm). unfold refs_ok in *. rewrite LA5. unfold o5. cbn. lia.
      + rewrite O5 by exact NE. assert (B := W4 m Hm). unfold refs_ok in *. rewrite LA5. lia.
    - intros m Hm. rewrite RO5 by lia. rewrite RO4 by lia. rewrite RO3 by lia.
      rewrite read_casc_obj, O2 by lia. apply O1, Hm.
    - exists sub. split; [exact Es|]. exists ls. split; [exact LV|]. destruct avg.
      + split; [reflexivity|]. split; [lia|]. unfold average. rewrite read_casc_obj, G5.
        assert (B4 := W4 total ltac:(lia)). assert (ST := ST5 (get_obj h4 total) B4).
        rewrite <- read_casc_obj in ST. rewrite R4, RT, RD2, ECT in ST. rewrite Z.add_0_l in ST.
        match type of ST with _ = ?X => set (X0 := X) in ST end.
        assert (PX : percentile X0 = perc) by (unfold X0; cbn [casc_mul percentile]; apply fold_add_percentile).
        transitivity {| p01 := p01 X0; p10 := p10 X0; pxx := pxx X0; wxx := wxx X0;
                        threshold := map (fun l => hd n_nan (threshold (fst l))) ls; percentile := perc |}; [|reflexivity].
        clearbody X0. subst X0. unfold read_obj in PX |- *. cbn [percentile] in PX.
        unfold o5. cbn [o01 o10 oxx owxx othr operc p01 p10 pxx wxx]. rewrite PX. f_equal.
        unfold get1, h5. cbn [arrs]. rewrite nth_new0. cbn [nth]. rewrite ETH. reflexivity.
      + split; [reflexivity|]. rewrite app_nil_l in EC. subst copies. split.
        * eapply Forall_impl; [|exact FN]. cbv beta. intros; lia.
        * rewrite <- RN. apply map_ext_in. intros k Hk. rewrite Forall_forall in FN. specialize (FN k Hk).
          rewrite RO5 by lia. apply RO4; lia.
  Qed.

  (** ** all seasons *)
  Lemma fillna0_idem_num (s : series T) : n_isnan (n0 : T) = false -> fillna0 (fillna0 s) = fillna0 s.
  Proof.
    intro Z. unfold fillna0. rewrite map_map. apply map_ext. intros [t x]. cbn [fst snd].
    destruct (n_isnan x) eqn:E; [rewrite Z|rewrite E]; reflexivity.
  Qed.

  Lemma season_later pct perc L avg h1 h2 lo sub st :
    (length (objs h1) <= length (objs h2))%nat -> (forall m, (m < length (objs h1))%nat -> read_casc h2 m = read_casc h1 m) ->
    season_ok pct perc L avg h1 lo sub st -> season_ok pct perc L avg h2 lo sub st.
  Proof.
    intros HL HR (ls & LV & H). exists ls. split; [exact LV|]. destruct st as [o|os].
    - destruct H as (A & B & C). split; [exact A|]. split; [lia|]. rewrite HR by lia. exact C.
    - destruct H as (A & B & C). split; [exact A|]. rewrite Forall_forall in B. split.
      + apply Forall_forall. intros o Ho. specialize (B o Ho). lia.
      + rewrite <- C. apply map_ext_in. intros o Ho. apply HR. apply B, Ho.
  Qed.

  Lemma iter_r {A} (f : A -> A) k : forall x, Nat.iter (S k) f x = Nat.iter k f (f x).
  Proof. induction k as [|k IH]; intro x; [reflexivity|]. cbn. cbn in IH. rewrite IH. reflexivity. Qed.

  Lemma build_seasons_ok pct perc L avg : forall months h obs acc h' obs' sts, wf h ->
    build_seasons pct perc L avg h obs months acc = Ok (h', obs', sts) ->
    obs' = Nat.iter (length months) fillna0 obs /\
    wf h' /\ (length (objs h) <= length (objs h'))%nat /\
    (forall m, (m < length (objs h))%nat -> read_casc h' m = read_casc h m) /\
    exists new, sts = acc ++ new /\ length new = length months /\
      forall k mo, nth_error months k = Some mo ->
        exists sub st, nth_error new k = Some st /\
          seasonal_subset (Nat.iter k fillna0 obs) mo = Ok sub /\
          season_ok pct perc L avg h' (length (objs h)) sub st.
  Proof.
    induction months as [|mo months IH]; intros h obs acc h' obs' sts W H.
    - cbn in H. injection H as <- <- <-. split; [reflexivity|]. split; [exact W|]. split; [lia|]. split; [auto|].
      exists []. rewrite app_nil_r. split; [reflexivity|]. split; [reflexivity|]. intros [|k] ? HK; discriminate.
    - cbn [build_seasons] in H. apply bind_Ok in H. destruct H as ([[h1 obs1] st] & E1 & H).
      destruct (build_season_ok _ _ _ _ _ _ _ _ _ _ W E1) as (EO & W1 & L1 & R1 & sub & Es & OK).
      destruct (IH h1 obs1 (acc ++ [st]) h' obs' sts W1 H) as (EO' & W' & L' & R' & new & EN & LN & HN).
      split; [|split; [exact W'|split; [lia|split]]].
      + rewrite EO', EO. cbn [length]. rewrite iter_r. reflexivity.
      + intros m Hm. rewrite R' by lia. apply R1, Hm.
      + exists (st :: new). split; [rewrite EN, <- app_assoc; reflexivity|]. split; [cbn; lia|].
        intros [|k] mo' HK.
        * cbn in HK. injection HK as <-. exists sub, st. split; [reflexivity|]. split; [exact Es|].
          eapply season_later; [exact L'|exact R'|exact OK].
        * cbn in HK. destruct (HN k mo' HK) as (sub' & st' & A & B & C). exists sub', st'. split; [exact A|].
          rewrite EO in B. rewrite iter_r. split; [exact B|].
          destruct C as (ls & LV & C). exists ls. split; [exact LV|]. destruct st' as [o'|os'].
          -- destruct C as (C1 & C2 & C3). split; [exact C1|]. split; [lia|exact C3].
          -- destruct C as (C1 & C2 & C3). split; [exact C1|]. split; [|exact C3].
             eapply Forall_impl; [|exact C2]. cbv beta. intros; lia.
  Qed.

  (** ** completeness: build_casc succeeds when every level of every season can be evaluated *)
  Definition sums_in (ls : list (casc T * nat)) : Z := fold_right Z.add 0 (map (fun l => Z.of_nat (snd l)) ls).
  Lemma levels_complete pct perc L vdn ls : levels_of pct perc L vdn ls ->
    forall h total copies thr count, exists h' cs th,
      levels_loop pct perc L h total vdn copies thr count = Ok (h', cs, th, count + sums_in ls).
  Proof.
    induction 1 as [s|L s c s' ls E LV IH]; intros h total copies thr count.
    { exists h, copies, thr. cbn [levels_loop]. unfold sums_in. cbn. rewrite Z.add_0_r. reflexivity. }
    cbn [levels_loop]. rewrite E. cbn [bind]. destruct (alloc_casc h c) as [h1 ci].
    destruct (agg_threshold _ _ _ _ _ E) as (t0 & Et). rewrite Et. cbn [getitem nth_error bind].
    destruct (copy_obj h1 ci) as [h2 cp].
    match goal with |- context [levels_loop _ _ _ ?H ?t _ ?c ?th ?n] => destruct (IH H t c th n) as (h' & cs & th' & EQ) end.
    exists h', cs, th'. rewrite EQ. unfold sums_in. cbn [map snd fold_right]. rewrite <- Z.add_assoc. reflexivity.
  Qed.
  Lemma levels_sums pct perc L vdn ls : (forall m, pct [] <> Ok m) -> levels_of pct perc L vdn ls -> 0 <= sums_in ls /\ (L <> O -> 0 < sums_in ls).
  Proof.
    intros HP H. induction H as [s|L s c s' ls E LV IH]; [split; [cbn; lia|congruence]|].
    unfold sums_in in *. cbn [map snd fold_right]. enough (length s' <> O) by lia.
    intro Z. unfold aggregate_precipitation in E. apply bind_Ok in E as (m & EP & E). apply bind_Ok in E as (vb & _ & E).
    assert (s' = pair_sums s) by (destruct (examine _ _ _ _ _) in E; congruence). subst s'.
    apply length_zero_iff_nil in Z. rewrite Z in EP. cbn in EP. exact (HP m EP).
  Qed.
  Lemma season_complete pct perc L avg h obs mo sub ls : seasonal_subset obs mo = Ok sub -> levels_of pct perc L sub ls -> sums_in ls <> 0 ->
    exists h' st, build_season pct perc L avg h obs mo = Ok (h', fillna0 obs, st).
  Proof.
    intros Es LV NZ. unfold build_season. rewrite Es. cbn [bind]. destruct (alloc_casc h casc_init) as [h1 total].
    match goal with |- context [levels_loop _ _ _ ?H ?t _ ?c ?th ?n] =>
      destruct (levels_complete pct perc L sub ls LV H t c th n) as (h3 & cs & th3 & ->) end.
    cbn [bind]. destruct (0 + sums_in ls =? 0) eqn:Q; [lia|]. destruct (new_arr _ _) as [h5 t]. eauto.
  Qed.
  Lemma build_complete pct perc L avg : forall months h obs acc,
    (forall k mo, nth_error months k = Some mo ->
       exists sub ls, seasonal_subset (Nat.iter k fillna0 obs) mo = Ok sub /\ levels_of pct perc L sub ls /\ sums_in ls <> 0) ->
    exists r, build_seasons pct perc L avg h obs months acc = Ok r.
  Proof.
    induction months as [|mo months IH]; intros h obs acc H; [eexists; reflexivity|].
    cbn [build_seasons]. destruct (H 0%nat mo eq_refl) as (sub & ls & Es & LV & NZ).
    destruct (season_complete pct perc L avg h obs mo sub ls Es LV NZ) as (h' & st & ->). cbn [bind].
    apply IH. intros k mo' HK. specialize (H (S k) mo' HK). rewrite iter_r in H. exact H.
  Qed.
  Lemma loop_count pct perc : (forall m, pct [] <> Ok m) -> forall L h total vdn cs th ct h' cs' th' ct',
    levels_loop pct perc L h total vdn cs th ct = Ok (h', cs', th', ct') -> ct <= ct' /\ (L <> O -> ct < ct').
  Proof.
    intro HP. induction L as [|L IH]; intros h total vdn cs th ct h' cs' th' ct' H.
    { cbn [levels_loop] in H. injection H as <- <- <- <-. split; [lia|congruence]. }
    cbn [levels_loop] in H. apply bind_Ok in H as ([c v] & E & H). destruct (alloc_casc h c) as [h1 ci]. apply bind_Ok in H as (t0 & _ & H).
    destruct (copy_obj h1 ci) as [h2 cp]. apply IH in H.
    destruct (levels_sums pct perc 1 vdn [(c, length v)] HP (lo_cons pct perc 0 vdn c v [] E (lo_nil pct perc v))) as [_ P].
    specialize (P ltac:(discriminate)). unfold sums_in in P. cbn [map snd fold_right] in P. lia.
  Qed.
  (** a season that succeeds has a level *)
  Lemma season_levels pct perc L avg h obs mo r : build_season pct perc L avg h obs mo = Ok r -> L <> O.
  Proof.
    intros H ->. unfold build_season in H. apply bind_Ok in H as (sub & _ & H). destruct (alloc_casc h casc_init) as [h1 total].
    cbn [levels_loop bind] in H. discriminate H.
  Qed.
  Lemma seasons_levels pct perc L avg h obs months acc r : months <> [] -> build_seasons pct perc L avg h obs months acc = Ok r -> L <> O.
  Proof.
    destruct months as [|mo months]; [congruence|]. intros _ H. cbn [build_seasons] in H. apply bind_Ok in H as (y & H & _). exact (season_levels _ _ _ _ _ _ _ _ H).
  Qed.
End Heap.
