(** Averaged statistics and percentiles in exact arithmetic. *)
From Coq Require Import ZArith List Bool Reals Lra Lia Sorted Permutation.
From Verif Require Import Py Num Cal Series SpecBase CascadeModel AggModel SpecAgg SpecBuild BuildProofs AggProofs AggExact.
Import ListNotations.
Open Scope R_scope.

(** ** np.percentile *)
Fixpoint rinsert (x : R) (l : list R) : list R :=
  match l with [] => [x] | y :: r => if Rleb x y then x :: l else y :: rinsert x r end.
Lemma insert_Fin x l : insert (Fin x) (map Fin l) = map Fin (rinsert x l).
Proof.
  induction l as [|y l IH]; [reflexivity|]. cbn [map insert rinsert]. rewrite xleb_Fin.
  destruct (Rleb x y); [reflexivity|]. cbn [map]. rewrite IH. reflexivity.
Qed.
Lemma sort_Fin l : sort (map Fin l) = map Fin (fold_right rinsert [] l).
Proof. induction l as [|x l IH]; [reflexivity|]. unfold sort in *. cbn [map fold_right]. rewrite IH. apply insert_Fin. Qed.
Lemma rinsert_perm x l : Permutation (rinsert x l) (x :: l).
Proof. induction l as [|y l IH]; [reflexivity|]. cbn. destruct (Rleb x y); [reflexivity|]. rewrite IH. apply perm_swap. Qed.
Lemma rsort_perm l : Permutation (fold_right rinsert [] l) l.
Proof. induction l as [|x l IH]; [reflexivity|]. cbn. rewrite rinsert_perm, IH. reflexivity. Qed.
Lemma rinsert_sorted x l : StronglySorted Rle l -> StronglySorted Rle (rinsert x l).
Proof.
  induction 1 as [|y l SS IH F]; cbn; [repeat constructor|].
  destruct (Rleb_spec x y) as [Hxy|Hxy].
  - constructor; [constructor; assumption|]. constructor; [exact Hxy|]. eapply Forall_impl; [|exact F].
    cbv beta. intros; lra.
  - constructor; [exact IH|]. apply Forall_forall. intros z Hz.
    apply (Permutation_in _ (rinsert_perm x l)) in Hz. destruct Hz as [<-|Hz]; [lra|].
    rewrite Forall_forall in F. apply F, Hz.
Qed.
Lemma rsort_sorted l : StronglySorted Rle (fold_right rinsert [] l).
Proof. induction l; [constructor|]. cbn. apply rinsert_sorted. assumption. Qed.

Lemma pct_index n q : (0 < n)%Z -> (0 <= q <= 100)%Z -> (0 <= (n - 1) * q / 100 <= n - 1)%Z.
Proof.
  intros Hn Hq. split; [apply Z.div_pos; nia|]. apply Z.div_le_upper_bound; nia.
Qed.

Lemma np_percentile_exact q xs : (0 <= q <= 100)%Z -> xs <> [] ->
  exists m, np_percentile q (map Fin xs) = Ok (Fin m) /\ is_percentile q xs m.
Proof.
  intros Hq NE. unfold np_percentile.
  replace ((q <? 0)%Z || (100 <? q)%Z)%bool with false by (symmetry; apply orb_false_iff; lia).
  rewrite sort_Fin. set (ys := fold_right rinsert [] xs).
  assert (PM : Permutation ys xs) by apply rsort_perm.
  assert (LN := Permutation_length PM).
  assert (0 < length ys)%nat by (rewrite LN; destruct xs; [congruence|cbn; lia]).
  destruct (map Fin ys) as [|x r] eqn:E; [apply map_eq_nil in E; rewrite E in *; cbn in *; lia|]. rewrite <- E. clear x r E.
  cbv zeta. rewrite map_length, LN.
  set (p := ((Z.of_nat (length xs) - 1) * q)%Z).
  assert (PI : (0 <= p / 100 <= Z.of_nat (length xs) - 1)%Z) by (apply pct_index; lia).
  set (i := Z.to_nat (p / 100)).
  assert (Hi : (i < length ys)%nat) by lia.
  rewrite (nth_indep (map Fin ys) n_nan (Fin 0)) by (rewrite map_length; exact Hi).
  rewrite map_nth. rewrite (map_nth Fin).
  rewrite xsub_Fin. cbn [n_ofZ Num_xr]. rewrite xdiv_Fin by lra. rewrite xmul_Fin, xadd_Fin.
  eexists. split; [reflexivity|]. exists ys. split; [symmetry; exact PM|]. split; [apply rsort_sorted|].
  cbv zeta. fold p. fold i. lra.
Qed.

Lemma sorted_nth ys : StronglySorted Rle ys -> forall i j d, (i <= j < length ys)%nat -> nth i ys d <= nth j ys d.
Proof.
  induction 1 as [|y ys SS IH F]; intros i j d H; [cbn in H; lia|].
  destruct j as [|j], i as [|i]; cbn [nth length] in *; try lra; try lia.
  - rewrite Forall_forall in F. apply F, nth_In. lia.
  - apply IH. lia.
Qed.

(** a percentile lies between the extremes *)
Lemma percentile_bounds q xs m lo hi : (0 <= q <= 100)%Z -> xs <> [] -> is_percentile q xs m ->
  Forall (fun x => lo <= x <= hi) xs -> lo <= m <= hi.
Proof.
  intros Hq NE (ys & PM & SS & ->) F. cbv zeta.
  set (p := ((Z.of_nat (length xs) - 1) * q)%Z).
  assert (LN := Permutation_length PM).
  assert (0 < length xs)%nat by (destruct xs; [congruence|cbn; lia]).
  assert (PI : (0 <= p / 100 <= Z.of_nat (length xs) - 1)%Z) by (apply pct_index; lia).
  set (i := Z.to_nat (p / 100)). assert (Hi : (i < length ys)%nat) by lia.
  assert (FY : forall y, In y ys -> lo <= y <= hi).
  { intros y Hy. rewrite Forall_forall in F. apply F. apply (Permutation_in _ (Permutation_sym PM)), Hy. }
  assert (A : lo <= nth i ys 0 <= hi) by (apply FY, nth_In, Hi).
  assert (B : lo <= nth (S i) ys (nth i ys 0) <= hi).
  { destruct (Nat.lt_ge_cases (S i) (length ys)) as [L|L]; [apply FY, nth_In, L|].
    rewrite (nth_overflow ys) by exact L. exact A. }
  assert (M : (0 <= p mod 100 < 100)%Z) by (apply Z.mod_pos_bound; lia).
  assert (M1 : 0 <= IZR (p mod 100) / 100 < 1).
  { destruct M as [M M']. apply IZR_le in M. apply IZR_lt in M'. lra. }
  set (f := IZR (p mod 100) / 100) in *. split; nra.
Qed.

(** ** weighted means *)
Lemma fold_add_table {A} (acc : A -> xr) (g : casc xr -> A) (ls : list (casc xr * nat)) xs :
  (forall c l, acc (g (add_level c l)) = (acc (g c) + acc (g (fst l)) * n_ofZ (Z.of_nat (snd l)))%num) ->
  map (fun l => acc (g (fst l))) ls = map Fin xs ->
  forall c0 x0, acc (g c0) = Fin x0 ->
  acc (g (fold_left add_level ls c0)) =
  Fin (x0 + fold_right Rplus 0 (map (fun p => fst p * INR (snd p)) (combine xs (map snd ls)))).
Proof.
  intro H. revert xs. induction ls as [|l ls IH]; intros xs E c0 x0 E0.
  - destruct xs; [|discriminate]. cbn [fold_left map combine fold_right]. rewrite E0. f_equal. lra.
  - destruct xs as [|x xs]; [discriminate|]. cbn [map] in E. injection E as E1 E.
    cbn [fold_left map combine fold_right fst snd].
    rewrite (IH xs E (add_level c0 l) (x0 + x * INR (snd l))).
    + f_equal. lra.
    + rewrite H, E0, E1. cbn [n_ofZ Num_xr]. rewrite xmul_Fin, xadd_Fin, <- INR_IZR_INZ. reflexivity.
Qed.

Lemma sum_counts (ls : list (casc xr * nat)) :
  IZR (fold_right Z.add 0%Z (map (fun l => Z.of_nat (snd l)) ls)) = fold_right Rplus 0 (map INR (map snd ls)).
Proof.
  induction ls as [|l ls IH]; [reflexivity|]. cbn [map fold_right]. rewrite plus_IZR, IH, <- INR_IZR_INZ. reflexivity.
Qed.

Lemma average_table {A} (acc : A -> xr) (g : casc xr -> A) perc (ls : list (casc xr * nat)) xs :
  (forall c l, acc (g (add_level c l)) = (acc (g c) + acc (g (fst l)) * n_ofZ (Z.of_nat (snd l)))%num) ->
  (forall c f, acc (g (casc_mul c f)) = (acc (g c) * f)%num) ->
  (forall c c', p01 c = p01 c' -> p10 c = p10 c' -> pxx c = pxx c' -> wxx c = wxx c' -> acc (g c) = acc (g c')) ->
  acc (g casc_init) = Fin 0 ->
  0 < fold_right Rplus 0 (map INR (map snd ls)) ->
  map (fun l => acc (g (fst l))) ls = map Fin xs ->
  acc (g (average perc ls)) = Fin (wmean xs (map snd ls)).
Proof.
  intros HA HM HX H0 HP E. unfold average. cbv zeta.
  match goal with |- acc (g ?r) = _ => match r with context [p01 (casc_mul ?x ?f)] =>
    rewrite (HX r (casc_mul x f) eq_refl eq_refl eq_refl eq_refl) end end.
  rewrite HM. rewrite (fold_add_table acc g ls xs HA E _ 0).
  - cbn [n_ofZ Num_xr]. rewrite n1_xr, sum_counts, xdiv_Fin by lra. rewrite xmul_Fin. f_equal. unfold wmean. field. lra.
  - rewrite <- H0. apply HX; reflexivity.
Qed.

Lemma average_ok perc (ls : list (casc xr * nat)) : 0 < fold_right Rplus 0 (map INR (map snd ls)) ->
  (forall b t xs, map (fun l => p01 (fst l) b t) ls = map Fin xs -> p01 (average perc ls) b t = Fin (wmean xs (map snd ls))) /\
  (forall b t xs, map (fun l => p10 (fst l) b t) ls = map Fin xs -> p10 (average perc ls) b t = Fin (wmean xs (map snd ls))) /\
  (forall b t xs, map (fun l => pxx (fst l) b t) ls = map Fin xs -> pxx (average perc ls) b t = Fin (wmean xs (map snd ls))) /\
  (forall k b t xs, map (fun l => wxx (fst l) k b t) ls = map Fin xs -> wxx (average perc ls) k b t = Fin (wmean xs (map snd ls))).
Proof.
  intro HP. repeat split.
  - intros b t xs E. apply (average_table (fun f => f b t) p01); auto; try reflexivity. intros c c' A B C D. rewrite A. reflexivity.
  - intros b t xs E. apply (average_table (fun f => f b t) p10); auto; try reflexivity. intros c c' A B C D. rewrite B. reflexivity.
  - intros b t xs E. apply (average_table (fun f => f b t) pxx); auto; try reflexivity. intros c c' A B C D. rewrite C. reflexivity.
  - intros k b t xs E. apply (average_table (fun f => f k b t) wxx); auto; try reflexivity. intros c c' A B C D. rewrite D. reflexivity.
Qed.

(** ** every level has at least one box *)
Lemma np_percentile_nonempty {T} {N : Num T} q (l : list T) m : np_percentile q l = Ok m -> l <> [].
Proof. unfold np_percentile. destruct (_ || _)%bool; [discriminate|]. destruct l; [discriminate|intros _; discriminate]. Qed.
Lemma agg_series {T} {N : Num T} pct perc (s : series T) c v : aggregate_precipitation pct perc s = Ok (c, v) -> v = pair_sums s.
Proof.
  unfold aggregate_precipitation. intro H. apply bind_Ok in H. destruct H as (m & _ & H).
  apply bind_Ok in H. destruct H as (vb & _ & H). destruct (examine _ _ _ _ _); injection H; auto.
Qed.
Lemma levels_positive {T} {N : Num T} q perc L s ls : levels_of (np_percentile q) perc L s ls ->
  length ls = L /\ Forall (fun l : casc T * nat => (0 < snd l)%nat) ls.
Proof.
  induction 1 as [|L s c s' ls E LV [IH1 IH2]]; [split; [reflexivity|constructor]|].
  split; [cbn; lia|]. constructor; [|exact IH2]. cbn [snd]. pose proof (agg_series _ _ _ _ _ E) as ->.
  unfold aggregate_precipitation in E. apply bind_Ok in E. destruct E as (m & E & _).
  apply np_percentile_nonempty in E. destruct (pair_sums s) as [|p r]; [exfalso; apply E; reflexivity|cbn; lia].
Qed.
Lemma positive_sum (ns : list nat) : ns <> [] -> Forall (fun n => (0 < n)%nat) ns -> 0 < fold_right Rplus 0 (map INR ns).
Proof.
  intros NE F. assert (G : 0 <= fold_right Rplus 0 (map INR ns)).
  { clear. induction ns as [|n ns IH]; cbn [map fold_right]; [lra|]. pose proof (pos_INR n). lra. }
  destruct ns as [|n ns]; [congruence|]. inversion F as [|? ? Hn F']; subst. cbn [map fold_right].
  assert (0 < INR n) by (apply lt_0_INR; exact Hn).
  assert (0 <= fold_right Rplus 0 (map INR ns)).
  { clear. induction ns as [|m ns IH]; cbn [map fold_right]; [lra|]. pose proof (pos_INR m). lra. }
  lra.
Qed.

(** ** means of distributions *)
Lemma wmean_bounds lo hi xs ns : length xs = length ns -> 0 < fold_right Rplus 0 (map INR ns) ->
  Forall (fun x => lo <= x <= hi) xs -> lo <= wmean xs ns <= hi.
Proof.
  intros LN HP F. unfold wmean.
  assert (G : lo * fold_right Rplus 0 (map INR ns) <= fold_right Rplus 0 (map (fun p => fst p * INR (snd p)) (combine xs ns))
              <= hi * fold_right Rplus 0 (map INR ns)).
  { clear HP. revert ns LN. induction F as [|x xs Hx F IH]; intros [|n ns] LN; try discriminate; cbn [combine map fold_right fst snd]; [lra|].
    injection LN as LN. specialize (IH ns LN). pose proof (pos_INR n). split; nra. }
  revert G HP. generalize (fold_right Rplus 0 (map INR ns)).
  generalize (fold_right Rplus 0 (map (fun p => fst p * INR (snd p)) (combine xs ns))). intros X W G HP.
  assert (E : X / W * W = X) by (field; lra). split; apply Rmult_le_reg_r with W; lra.
Qed.
Lemma wmean_sum (fs : list (list R)) ns : 
  Forall (fun xs => length xs = length ns) fs ->
  Rsum (map (fun xs => wmean xs ns) fs)
  = wmean (map (fun i => Rsum (map (fun xs => nth i xs 0) fs)) (seq 0 (length ns))) ns.
Proof.
  intro F. unfold wmean, Rdiv. set (K := / _).
  induction F as [|xs fs Hx F IH].
  - cbn [map]. unfold Rsum at 1. cbn [fold_right].
    match goal with |- 0 = ?a * K => assert (Z : a = 0); [|rewrite Z; lra] end.
    clear. generalize 0%nat as k. induction ns as [|n ns IH]; intro k; [reflexivity|].
    cbn [length seq map combine fold_right fst snd]. rewrite IH. unfold Rsum. cbn [fold_right]. lra.
  - cbn [map]. change (Rsum (?a :: ?l)) with (a + Rsum l). rewrite IH. rewrite <- Rmult_plus_distr_r. f_equal.
    clear - Hx. 
    assert (G : forall k ys, length ys = length ns -> (forall i, nth i ys 0 = nth (k + i) xs 0) ->
      fold_right Rplus 0 (map (fun p => fst p * INR (snd p)) (combine ys ns)) +
      fold_right Rplus 0 (map (fun p => fst p * INR (snd p)) (combine (map (fun i => Rsum (map (fun xs => nth i xs 0) fs)) (seq k (length ns))) ns))
      = fold_right Rplus 0 (map (fun p => fst p * INR (snd p)) (combine (map (fun i => Rsum (nth i xs 0 :: map (fun xs => nth i xs 0) fs)) (seq k (length ns))) ns))).
    { clear Hx. induction ns as [|n ns IH]; intros k [|y ys] LN HY; try discriminate; cbn [length seq map combine fold_right fst snd].
      - lra.
      - injection LN as LN. specialize (IH (S k) ys LN).
        assert (A : forall i, nth i ys 0 = nth (S k + i) xs 0).
        { intro i. specialize (HY (S i)). cbn [nth] in HY. rewrite HY. f_equal. lia. }
        specialize (IH A). specialize (HY 0%nat). cbn [nth] in HY. rewrite Nat.add_0_r in HY.
        change (Rsum (?a :: ?l)) with (a + Rsum l) at 1. rewrite <- IH, HY.
        change (Rsum (?a :: ?l)) with (a + Rsum l). lra. }
    apply (G 0%nat xs Hx). reflexivity.
Qed.
Lemma wmean_const x ns : 0 < fold_right Rplus 0 (map INR ns) -> wmean (repeat x (length ns)) ns = x.
Proof.
  intro HP. assert (B : x <= wmean (repeat x (length ns)) ns <= x).
  { apply wmean_bounds; [apply repeat_length|exact HP|]. apply Forall_forall. intros y Hy. apply repeat_spec in Hy. lra. }
  lra.
Qed.
