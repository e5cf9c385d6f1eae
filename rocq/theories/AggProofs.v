(** aggregate_precipitation computes the relative frequencies of SpecAgg. *)
From Coq Require Import ZArith List Bool Reals Lra Lia.
From Verif Require Import Py Num Cal Series CascadeModel SpecCascade AggModel SpecAgg.
Import ListNotations.
Open Scope R_scope.

Lemma rain_xr a : rain (to_xr a) = owet a.
Proof. destruct a; reflexivity. Qed.
Lemma is0_xr a : is0 (to_xr a) = odry a.
Proof. destruct a; reflexivity. Qed.
Lemma osum_xr a b : (to_xr a + to_xr b)%num = to_xr (osum a b).
Proof. destruct a, b; reflexivity. Qed.

Lemma pairs_ind {A} (P : list A -> Prop) :
  P [] -> (forall x, P [x]) -> (forall x y l, P l -> P (x :: y :: l)) -> forall l, P l.
Proof.
  intros H0 H1 H2. assert (H : forall l, P l /\ forall x, P (x :: l)).
  { induction l as [|a l [IH1 IH2]]; split; auto. }
  intro l. apply H.
Qed.

Lemma pair_sums_values (s : series xr) d : map snd s = map to_xr d ->
  values (pair_sums s) = map to_xr (osums d).
Proof.
  unfold values, osums. revert d. induction s as [|p|[t1 x] [t2 y] s IH] using pairs_ind; intros d E.
  - destruct d; [reflexivity|discriminate].
  - destruct d as [|a [|b d]]; try discriminate. destruct p; reflexivity.
  - destruct d as [|a [|b d]]; try discriminate. cbn [map snd] in E. injection E as -> -> E.
    cbn [pair_sums map snd pairs fst]. rewrite osum_xr. f_equal. apply IH, E.
Qed.
Lemma pair_sums_index {T} {N : Num T} (s : series T) : map fst (pair_sums s) = map snd (pairs (map fst s)).
Proof.
  induction s as [|p|[t1 x] [t2 y] s IH] using pairs_ind; [reflexivity|destruct p; reflexivity|].
  cbn [pair_sums map fst pairs snd]. f_equal. exact IH.
Qed.
Lemma pair_sums_snd {T} {N : Num T} (s : series T) :
  map snd (pair_sums s) = map (fun p => (fst p + snd p)%num) (pairs (map snd s)).
Proof.
  induction s as [|p|[t1 x] [t2 y] s IH] using pairs_ind; [reflexivity|destruct p; reflexivity|].
  cbn [pair_sums map fst pairs snd]. f_equal. exact IH.
Qed.
Lemma pairs_length {A} (l : list A) : length (pairs l) = (length l / 2)%nat.
Proof.
  induction l as [|p|x y l IH] using pairs_ind; [reflexivity|reflexivity|].
  cbn [pairs length]. rewrite IH. change (S (S (length l))) with (2 + length l)%nat.
  replace (2 + length l)%nat with (length l + 1 * 2)%nat by lia. rewrite Nat.div_add by lia. lia.
Qed.
Lemma pairs_nth {A} (l : list A) j x y : nth_error (pairs l) j = Some (x, y) ->
  nth_error l (2 * j) = Some x /\ nth_error l (2 * j + 1) = Some y.
Proof.
  revert j. induction l as [|p|a b l IH] using pairs_ind; intros j H.
  - destruct j; discriminate.
  - destruct j; discriminate.
  - destruct j as [|j]; cbn in H; [injection H as -> ->; auto|]. apply IH in H.
    replace (2 * S j)%nat with (S (S (2 * j))) by lia.
    replace (S (S (2 * j)) + 1)%nat with (S (S (2 * j + 1))) by lia. exact H.
Qed.

(** ** box types *)
Lemma nth_to_xr (v : list amt) k : nth k (map to_xr v) NaN = to_xr (nth k v None).
Proof. change NaN with (to_xr None). apply map_nth. Qed.

Lemma not_wet_dry a : nonneg (Some a) -> Rltb 0 a = negb (Reqb a 0).
Proof. cbn. intro H. destruct (Rltb_spec 0 a), (Reqb_spec a 0); try reflexivity; exfalso; lra. Qed.

Lemma box_type_ok v j : Forall nonneg v -> (j < length v)%nat -> (2 <= length v)%nat ->
  exists t, box_type (map to_xr v) j = Ok t /\
    (owet (nth j v None) = true -> col_of t = ocolumn v j).
Proof.
  intros NN Hj HL. unfold box_type. change (@n_nan xr Num_xr) with NaN. rewrite nth_to_xr, rain_xr, map_length.
  assert (NNn : forall k a, nth k v None = Some a -> 0 <= a).
  { intros k a E. destruct (Nat.lt_ge_cases k (length v)) as [L|L].
    - rewrite Forall_forall in NN. apply (NN (Some a)). rewrite <- E. apply nth_In. exact L.
    - rewrite nth_overflow in E by exact L. discriminate. }
  destruct (owet (nth j v None)) eqn:W; [|exists bt_dry; split; [reflexivity|discriminate]].
  destruct (Nat.eqb_spec j 0) as [->|J0].
  - unfold getitem. rewrite nth_error_map.
    destruct (nth_error v 1) as [a|] eqn:E1; [|apply nth_error_None in E1; lia].
    cbn [option_map bind]. rewrite rain_xr. eexists. split; [reflexivity|]. intros _.
    unfold ocolumn. rewrite (nth_error_nth _ _ _ E1). destruct a as [a|]; cbn [owet].
    + assert (Rltb 0 0 = false) as -> by (destruct (Rltb_spec 0 0); [lra|reflexivity]).
      destruct (Rltb 0 a); reflexivity.
    + reflexivity.
  - destruct j as [|i]; [lia|]. replace (S i - 1)%nat with i by lia. rewrite nth_to_xr, rain_xr, is0_xr.
    replace (S i + 1)%nat with (S (S i)) by lia. rewrite nth_to_xr, is0_xr, rain_xr.
    assert (Ei : nth i v (Some 0) = nth i v None) by (apply nth_indep; lia).
    unfold ocolumn. rewrite Ei.
    destruct (Nat.eqb_spec (S i) (length v - 1)) as [JL|JL].
    + eexists. split; [reflexivity|]. intros _. rewrite (nth_overflow v (Some 0)) by lia.
      assert (Rltb 0 0 = false) as -> by (destruct (Rltb_spec 0 0); [lra|reflexivity]).
      destruct (nth i v None) as [a|]; cbn [owet]; [destruct (Rltb 0 a)|]; reflexivity.
    + assert (Ej : nth (S (S i)) v (Some 0) = nth (S (S i)) v None) by (apply nth_indep; lia).
      rewrite Ej. eexists. split; [reflexivity|]. intros _.
      destruct (nth i v None) as [a|] eqn:Ea; cbn [owet odry andb].
      * pose proof (not_wet_dry a (NNn _ _ Ea)) as Da.
        destruct (nth (S (S i)) v None) as [b|] eqn:Eb; cbn [owet odry andb].
        -- pose proof (not_wet_dry b (NNn _ _ Eb)) as Db. rewrite Da, Db.
           destruct (Reqb a 0), (Reqb b 0); reflexivity.
        -- rewrite !andb_false_r. reflexivity.
      * reflexivity.
Qed.

Lemma box_types_ok v : Forall nonneg v -> (2 <= length v)%nat ->
  forall n a, (a + n <= length v)%nat -> exists ts, box_types (map to_xr v) (seq a n) = Ok ts /\ length ts = n /\
    forall i, (i < n)%nat -> owet (nth (a + i) v None) = true -> col_of (nth i ts 0%nat) = ocolumn v (a + i).
Proof.
  intros NN HL. induction n as [|n IH]; intros a Ha.
  - exists []. repeat split. lia.
  - destruct (box_type_ok v a NN ltac:(lia) HL) as (t & Et & Ct).
    destruct (IH (S a) ltac:(lia)) as (ts & Ets & Lts & Cts).
    exists (t :: ts). cbn [seq box_types]. rewrite Et. cbn [bind]. rewrite Ets. cbn [bind length].
    split; [reflexivity|]. split; [lia|]. intros [|i] Hi.
    + rewrite Nat.add_0_r. exact Ct.
    + replace (a + S i)%nat with (S a + i)%nat by lia. apply Cts. lia.
Qed.

(** ** counting *)
(** pairs with their column *)
Definition cnt {A} (P : A -> bool) (l : list A) : nat := length (filter P l).
Lemma cnt_cons {A} (P : A -> bool) x l : cnt P (x :: l) = ((if P x then 1 else 0) + cnt P l)%nat.
Proof. unfold cnt. cbn. destruct (P x); reflexivity. Qed.

Record tables : Type := { t_nb : nat -> nat -> nat; t_nbxx : nat -> nat -> nat; t_01 : nat -> nat -> nat;
  t_10 : nat -> nat -> nat; t_xx : nat -> nat -> nat; t_w : nat -> nat -> nat -> nat }.
Definition rep (s : counts (T := xr)) (t : tables) : Prop :=
  (forall b c, k_nb s b c = Fin (INR (t_nb t b c))) /\ (forall b c, k_nbxx s b c = Fin (INR (t_nbxx t b c))) /\
  (forall b c, k_01 s b c = Fin (INR (t_01 t b c))) /\ (forall b c, k_10 s b c = Fin (INR (t_10 t b c))) /\
  (forall b c, k_xx s b c = Fin (INR (t_xx t b c))) /\ (forall k b c, k_w s k b c = Fin (INR (t_w t k b c))).

Lemma bump_rep f g b c : (forall b c, f b c = Fin (INR (g b c))) ->
  forall b' c', bump f b c b' c' = Fin (INR ((if Nat.eqb b' b && Nat.eqb c' c then 1 else 0) + g b' c')).
Proof.
  intros H b' c'. unfold bump. rewrite H. destruct (Nat.eqb b' b && Nat.eqb c' c); [|reflexivity].
  rewrite n1_xr, xadd_Fin. f_equal. rewrite plus_INR. cbn. lra.
Qed.

Definition quad : Type := amt * amt * nat.
Definition q_cell (m : xr) (b c : nat) (q : quad) : bool :=
  let '(x, y, t) := q in owet (osum x y) && Nat.eqb (row m (to_xr (osum x y))) b && Nat.eqb (col_of t) c.
Definition q_01 (q : quad) : bool := let '(x, y, _) := q in odry x && owet y.
Definition q_10 (q : quad) : bool := let '(x, y, _) := q in owet x && odry y.
Definition q_xx (q : quad) : bool := let '(x, y, _) := q in owet x && owet y.
Definition q_share (k : nat) (q : quad) : bool :=
  let '(x, y, _) := q in
  match x, y with
  | Some x, Some y => Rltb (wbound k) (x / (x + y)) && Rleb (x / (x + y)) (wbound (S k))
  | _, _ => false
  end.
Definition add_tables (m : xr) (q : quad) (t : tables) : tables :=
  let one (P : bool) := if P then 1%nat else 0%nat in
  {| t_nb := fun b c => (one (q_cell m b c q) + t_nb t b c)%nat;
     t_nbxx := fun b c => (one (q_cell m b c q && q_xx q) + t_nbxx t b c)%nat;
     t_01 := fun b c => (one (q_cell m b c q && q_01 q) + t_01 t b c)%nat;
     t_10 := fun b c => (one (q_cell m b c q && q_10 q) + t_10 t b c)%nat;
     t_xx := fun b c => (one (q_cell m b c q && q_xx q) + t_xx t b c)%nat;
     t_w := fun k b c => (one (q_cell m b c q && q_xx q && q_share k q && Nat.ltb k 7) + t_w t k b c)%nat |}.

(** the class is the only one containing the share *)
Lemma wlower_xr k : (k < 7)%nat -> wlower k = Fin (wbound k).
Proof.
  intro H. unfold wlower, wbound. do 7 (destruct k as [|k]; [cbn [nth]; rewrite ?lit_xr, ?n0_xr by lia; f_equal; cbn; lra|]). lia.
Qed.
Lemma wupper_xr k : (k < 7)%nat -> wupper k = Fin (wbound (S k)).
Proof.
  intro H. unfold wupper, wbound. do 7 (destruct k as [|k]; [cbn [nth]; rewrite ?lit_xr, ?n1_xr by lia; f_equal; cbn; lra|]). lia.
Qed.

Lemma wbound_mono k : (k < 7)%nat -> wbound k < wbound (S k).
Proof. intro H. unfold wbound. do 7 (destruct k as [|k]; [cbn; lra|]). lia. Qed.
Lemma wbound_le j k : (j <= k <= 7)%nat -> wbound j <= wbound k.
Proof.
  intros [H1 H2]. induction H1 as [|k H1 IH]; [lra|]. specialize (IH ltac:(lia)).
  pose proof (wbound_mono k ltac:(lia)). lra.
Qed.

Lemma wclass_exists w : 0 < w <= 1 -> exists k, (k < 7)%nat /\ wbound k < w <= wbound (S k).
Proof.
  intro H.
  destruct (Rle_dec w (wbound 1)); [exists 0%nat; split; [lia|]; unfold wbound in *; cbn in *; lra|].
  destruct (Rle_dec w (wbound 2)); [exists 1%nat; split; [lia|]; unfold wbound in *; cbn in *; lra|].
  destruct (Rle_dec w (wbound 3)); [exists 2%nat; split; [lia|]; unfold wbound in *; cbn in *; lra|].
  destruct (Rle_dec w (wbound 4)); [exists 3%nat; split; [lia|]; unfold wbound in *; cbn in *; lra|].
  destruct (Rle_dec w (wbound 5)); [exists 4%nat; split; [lia|]; unfold wbound in *; cbn in *; lra|].
  destruct (Rle_dec w (wbound 6)); [exists 5%nat; split; [lia|]; unfold wbound in *; cbn in *; lra|].
  exists 6%nat; split; [lia|]; unfold wbound in *; cbn in *; lra.
Qed.
Lemma wclass_unique w j k : (j < 7)%nat -> (k < 7)%nat ->
  wbound j < w <= wbound (S j) -> wbound k < w <= wbound (S k) -> j = k.
Proof.
  intros Hj Hk A B. destruct (Nat.lt_trichotomy j k) as [L|[E|L]]; [|exact E|]; exfalso.
  - pose proof (wbound_le (S j) k ltac:(lia)). lra.
  - pose proof (wbound_le (S k) j ltac:(lia)). lra.
Qed.

Lemma find_Some_in {A} (f : A -> bool) l x : In x l -> f x = true -> exists y, find f l = Some y.
Proof.
  intros HI Hf. destruct (find f l) eqn:E; [eauto|]. rewrite (find_none _ _ E x HI) in Hf. discriminate.
Qed.
Lemma wclass_xr w : 0 < w <= 1 -> exists k, wclass (Fin w) = Some k /\ (k < 7)%nat /\ wbound k < w <= wbound (S k).
Proof.
  intro H. destruct (wclass_exists w H) as (k & Hk & B).
  set (f := fun k => ((wlower k <? Fin w)%num && (Fin w <=? wupper k)%num)%bool).
  assert (F : forall j, (j < 7)%nat -> f j = true <-> wbound j < w <= wbound (S j)).
  { intros j Hj. unfold f. rewrite wlower_xr, wupper_xr, xltb_Fin, xleb_Fin, andb_true_iff by exact Hj.
    destruct (Rltb_spec (wbound j) w), (Rleb_spec w (wbound (S j))); intuition (try discriminate; try lra). }
  destruct (find_Some_in f (seq 0 7) k) as (j & Ej).
  { apply in_seq. lia. }
  { apply F; assumption. }
  exists j. split; [exact Ej|]. apply find_some in Ej. destruct Ej as [Ij Fj]. apply in_seq in Ij.
  assert (Hj : (j < 7)%nat) by lia. split; [exact Hj|]. apply F; assumption.
Qed.

Lemma examine_pair_ok m q s t : let '(x, y, ty) := q in
  nonneg x -> nonneg y -> rep s t ->
  exists s', examine_pair m (to_xr x) (to_xr y) (to_xr x + to_xr y)%num ty s = inl s' /\ rep s' (add_tables m q t).
Proof.
  destruct q as [[x y] ty]. intros Hx Hy R. rewrite osum_xr. unfold examine_pair. rewrite !rain_xr, !is0_xr.
  destruct (owet (osum x y)) eqn:W.
  2:{ exists s. split; [reflexivity|]. destruct R as (R1 & R2 & R3 & R4 & R5 & R6).
      unfold rep, add_tables, q_cell. rewrite W. cbn [andb t_nb t_nbxx t_01 t_10 t_xx t_w Nat.add].
      repeat split; assumption. }
  destruct x as [x|]; [|discriminate]. destruct y as [y|]; [|discriminate]. cbn in Hx, Hy.
  cbn [osum owet] in W. 
  set (b := if (m <? to_xr (osum (Some x) (Some y)))%num then 1%nat else 0%nat). set (c := col_of ty).
  assert (QC : forall b' c', q_cell m b' c' (Some x, Some y, ty) = Nat.eqb b' b && Nat.eqb c' c).
  { intros b' c'. unfold q_cell. cbn [osum owet]. rewrite W. cbn [andb]. fold c.
    replace (row m (to_xr (Some (x + y)))) with b by reflexivity.
    rewrite (Nat.eqb_sym b b'), (Nat.eqb_sym c c'). reflexivity. }
  destruct R as (R1 & R2 & R3 & R4 & R5 & R6). cbv zeta. cbn [owet odry].
  pose proof (not_wet_dry x Hx) as Dx. pose proof (not_wet_dry y Hy) as Dy.
  destruct (Rltb_spec 0 (x + y)) as [WW|]; [|discriminate].
  destruct (Reqb_spec x 0) as [X0|X0]; destruct (Reqb_spec y 0) as [Y0|Y0]; rewrite Dx, Dy; cbn [negb andb].
  - exfalso. lra.
  - (* 0/x *)
    eexists. split; [reflexivity|]. unfold rep, add_tables; cbn [t_nb t_nbxx t_01 t_10 t_xx t_w k_nb k_nbxx k_01 k_10 k_xx k_w q_01 q_10 q_xx owet odry].
    rewrite Dx, Dy. destruct (Reqb_spec x 0); [|contradiction]. destruct (Reqb_spec y 0); [contradiction|]. cbn [negb andb].
    repeat split; intros; rewrite ?QC, ?andb_true_r, ?andb_false_r; cbn [andb]; try (apply bump_rep; assumption); cbn [Nat.add]; auto.
  - (* x/0 *)
    eexists. split; [reflexivity|]. unfold rep, add_tables; cbn [t_nb t_nbxx t_01 t_10 t_xx t_w k_nb k_nbxx k_01 k_10 k_xx k_w q_01 q_10 q_xx owet odry].
    rewrite Dx, Dy. destruct (Reqb_spec x 0); [contradiction|]. destruct (Reqb_spec y 0); [|contradiction]. cbn [negb andb].
    repeat split; intros; rewrite ?QC, ?andb_true_r, ?andb_false_r; cbn [andb]; try (apply bump_rep; assumption); cbn [Nat.add]; auto.
  - (* x/x *)
    assert (NG : (lit 1 3 <? nabs (to_xr (Some x) + to_xr (Some y) - to_xr (osum (Some x) (Some y))))%num = false).
    { cbn [to_xr osum]. rewrite xadd_Fin, xsub_Fin. unfold nabs. rewrite n0_xr, xltb_Fin.
      replace (x + y - (x + y)) with 0 by lra. destruct (Rltb_spec 0 0); [lra|].
      rewrite lit_xr by lia. rewrite xltb_Fin. cbn. match goal with |- Rltb ?a 0 = _ => destruct (Rltb_spec a 0); [lra|reflexivity] end. }
    rewrite NG. set (w := x / (x + y)).
    assert (EW : (to_xr (Some x) / (to_xr (Some x) + to_xr (Some y)))%num = Fin w).
    { cbn [to_xr]. rewrite xadd_Fin, xdiv_Fin by lra. reflexivity. }
    rewrite EW.
    assert (HW : 0 < w <= 1).
    { unfold w. split.
      - apply Rmult_lt_0_compat; [lra|]. apply Rinv_0_lt_compat. lra.
      - apply Rmult_le_reg_r with (x + y); [lra|]. unfold Rdiv. rewrite Rmult_assoc, Rinv_l by lra. lra. }
    destruct (wclass_xr w HW) as (k & Ek & Hk & Bk). rewrite Ek.
    eexists. split; [reflexivity|]. unfold rep, add_tables; cbn [t_nb t_nbxx t_01 t_10 t_xx t_w k_nb k_nbxx k_01 k_10 k_xx k_w q_01 q_10 q_xx owet odry].
    rewrite Dx, Dy. destruct (Reqb_spec x 0); [contradiction|]. destruct (Reqb_spec y 0); [contradiction|]. cbn [negb andb].
    repeat split; intros; rewrite ?QC, ?andb_true_r, ?andb_false_r; cbn [andb]; try (apply bump_rep; assumption); cbn [Nat.add]; auto.
    rename k0 into k'.
    assert (SH : q_share k' (Some x, Some y, ty) && Nat.ltb k' 7 = Nat.eqb k' k).
    { cbn [q_share]. fold w. destruct (Nat.ltb_spec k' 7) as [L|L].
      - rewrite andb_true_r. destruct (Nat.eqb_spec k' k) as [->|NE].
        + destruct (Rltb_spec (wbound k) w), (Rleb_spec w (wbound (S k))); try reflexivity; exfalso; lra.
        + destruct (Rltb_spec (wbound k') w), (Rleb_spec w (wbound (S k'))); try reflexivity.
          exfalso. apply NE. apply (wclass_unique w); auto.
      - rewrite andb_false_r. symmetry. apply Nat.eqb_neq. lia. }
    match goal with |- context [?A && q_share k' ?q && (k' <? 7)%nat] =>
      replace (A && q_share k' q && (k' <? 7)%nat) with (A && Nat.eqb k' k)
        by (rewrite <- SH; apply andb_assoc) end.
    destruct (Nat.eqb k' k).
    + rewrite andb_true_r. apply bump_rep. intros. apply R6.
    + rewrite andb_false_r. cbn [Nat.add]. apply R6.
Qed.

Definition q_x (q : quad) : amt := fst (fst q).
Definition q_y (q : quad) : amt := snd (fst q).
Definition q_t (q : quad) : nat := snd q.

Definition sum_tables (m : xr) (qs : list quad) (t : tables) : tables :=
  {| t_nb := fun b c => (cnt (q_cell m b c) qs + t_nb t b c)%nat;
     t_nbxx := fun b c => (cnt (fun q => q_cell m b c q && q_xx q) qs + t_nbxx t b c)%nat;
     t_01 := fun b c => (cnt (fun q => q_cell m b c q && q_01 q) qs + t_01 t b c)%nat;
     t_10 := fun b c => (cnt (fun q => q_cell m b c q && q_10 q) qs + t_10 t b c)%nat;
     t_xx := fun b c => (cnt (fun q => q_cell m b c q && q_xx q) qs + t_xx t b c)%nat;
     t_w := fun k b c => (cnt (fun q => q_cell m b c q && q_xx q && q_share k q && Nat.ltb k 7) qs + t_w t k b c)%nat |}.

Lemma rep_ext s t t' : rep s t ->
  (forall b c, t_nb t b c = t_nb t' b c) -> (forall b c, t_nbxx t b c = t_nbxx t' b c) ->
  (forall b c, t_01 t b c = t_01 t' b c) -> (forall b c, t_10 t b c = t_10 t' b c) ->
  (forall b c, t_xx t b c = t_xx t' b c) -> (forall k b c, t_w t k b c = t_w t' k b c) -> rep s t'.
Proof.
  intros (R1 & R2 & R3 & R4 & R5 & R6) H1 H2 H3 H4 H5 H6.
  repeat split; intros; [rewrite <- H1|rewrite <- H2|rewrite <- H3|rewrite <- H4|rewrite <- H5|rewrite <- H6]; auto.
Qed.

Lemma examine_ok m qs : Forall (fun q => nonneg (q_x q) /\ nonneg (q_y q)) qs ->
  forall s t rest, (length rest < 2)%nat -> rep s t ->
  exists s', examine m (flat_map (fun q => [to_xr (q_x q); to_xr (q_y q)]) qs ++ rest)
     (map (fun q => (to_xr (q_x q) + to_xr (q_y q))%num) qs) (map q_t qs) s = inl s' /\
    rep s' (sum_tables m qs t).
Proof.
  induction 1 as [|[[x y] ty] qs [Hx Hy] F IH]; intros s t rest HR R.
  - exists s. split; [destruct rest as [|a [|b r]]; reflexivity|].
    eapply rep_ext; [exact R|..]; reflexivity.
  - cbn [flat_map map app q_x q_y q_t fst snd examine].
    destruct (examine_pair_ok m (x, y, ty) s t Hx Hy R) as (s1 & E1 & R1). rewrite E1.
    destruct (IH s1 _ rest HR R1) as (s2 & E2 & R2). exists s2. split; [exact E2|].
    eapply rep_ext; [exact R2|..]; intros; unfold sum_tables, add_tables;
      cbn [t_nb t_nbxx t_01 t_10 t_xx t_w]; rewrite cnt_cons; lia.
Qed.

(** ** from quads back to positions *)
Lemma data_quads (d : list amt) (ts : list nat) : length ts = length (pairs d) ->
  (exists rest, map to_xr d = flat_map (fun q => [to_xr (q_x q); to_xr (q_y q)]) (combine (pairs d) ts) ++ rest /\ (length rest < 2)%nat) /\
  map to_xr (osums d) = map (fun q => (to_xr (q_x q) + to_xr (q_y q))%num) (combine (pairs d) ts) /\ ts = map q_t (combine (pairs d) ts).
Proof.
  unfold osums. revert ts. induction d as [|a|a b d IH] using pairs_ind; intros ts L.
  - destruct ts; [|discriminate]. split; [exists []; split; [reflexivity|cbn; lia]|]. split; reflexivity.
  - destruct ts; [|discriminate]. split; [exists [to_xr a]; split; [reflexivity|cbn; lia]|]. split; reflexivity.
  - destruct ts as [|t ts]; [discriminate|]. cbn [pairs length] in L.
    destruct (IH ts ltac:(lia)) as ((rest & E1 & L1) & E2 & E3).
    cbn [pairs combine flat_map map q_x q_y q_t fst snd app]. split; [|split].
    + exists rest. rewrite E1. split; [reflexivity|exact L1].
    + rewrite osum_xr, E2. reflexivity.
    + rewrite <- E3. reflexivity.
Qed.

Lemma combine_seq {A B} (l : list A) (ts : list B) da db : length ts = length l ->
  combine l ts = map (fun j => (nth j l da, nth j ts db)) (seq 0 (length l)).
Proof.
  revert ts. induction l as [|a l IH]; intros [|t ts] L; try discriminate; [reflexivity|].
  cbn [combine length seq map nth]. f_equal. rewrite <- seq_shift, map_map. cbn [nth]. apply IH. cbn in L; lia.
Qed.

Lemma cnt_map {A B} (f : A -> B) P l : cnt P (map f l) = cnt (fun x => P (f x)) l.
Proof. unfold cnt. induction l as [|a l IH]; [reflexivity|]. cbn. destruct (P (f a)); cbn; rewrite IH; reflexivity. Qed.
Lemma cnt_ext_in {A} (P Q : A -> bool) l : (forall x, In x l -> P x = Q x) -> cnt P l = cnt Q l.
Proof. intro H. unfold cnt. f_equal. apply filter_ext_in. exact H. Qed.

Lemma quad_count m d ts (P : list amt -> nat -> bool) (Q : quad -> bool) :
  length ts = length (pairs d) ->
  (forall j, (j < length (pairs d))%nat -> owet (nth j (osums d) None) = true -> col_of (nth j ts 0%nat) = ocolumn (osums d) j) ->
  (forall j x y t, (j < length (pairs d))%nat -> pair_at d j = (x, y) -> Q (x, y, t) = P d j) ->
  forall b c, cnt (fun q => q_cell m b c q && Q q) (combine (pairs d) ts) = n_cell_and P m d b c.
Proof.
  intros L C HQ b c. rewrite (@combine_seq (amt * amt) nat (pairs d) ts (None, None) 0%nat L), cnt_map.
  unfold n_cell_and, number. fold (cnt (fun j => in_cell m (osums d) b c j && P d j) (seq 0 (length (pairs d)))).
  apply cnt_ext_in. intros j Hj. apply in_seq in Hj. assert (Hj' : (j < length (pairs d))%nat) by lia.
  destruct (nth j (pairs d) (None, None)) as [x y] eqn:E.
  rewrite (HQ j x y _ Hj' E).
  assert (EV : nth j (osums d) None = osum x y).
  { unfold osums. set (F := fun p : amt * amt => osum (fst p) (snd p)).
    rewrite nth_indep with (d' := F (None, None)) by (rewrite map_length; lia). rewrite (map_nth F), E. reflexivity. }
  f_equal. unfold in_cell, q_cell. rewrite EV. destruct (owet (osum x y)) eqn:W; [|reflexivity].
  rewrite C by (try rewrite EV; assumption). reflexivity.
Qed.
