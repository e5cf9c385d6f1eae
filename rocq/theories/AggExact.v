(** aggregate_precipitation: exact characterisation and its consequences. *)
From Coq Require Import ZArith List Bool Reals Lra Lia.
From Verif Require Import Py Num Cal Series SpecBase CascadeModel SpecCascade AggModel SpecAgg AggProofs.
Import ListNotations.
Open Scope R_scope.

Lemma cells_In b t : (b < 2)%nat -> (t < 4)%nat -> In (b, t) cells.
Proof.
  intros Hb Ht. unfold cells. destruct b as [|[|b]]; [| |lia];
    destruct t as [|[|[|[|t]]]]; try lia; cbn; auto 10.
Qed.
Lemma In_cells b t : In (b, t) cells -> (b < 2)%nat /\ (t < 4)%nat.
Proof. unfold cells. cbn. intuition (match goal with H : (_, _) = (_, _) |- _ => injection H as <- <- end; lia). Qed.

Lemma any_nan2_spec (f : nat -> nat -> xr) :
  any_nan2 f = true <-> exists b t, (b < 2)%nat /\ (t < 4)%nat /\ f b t = NaN.
Proof.
  unfold any_nan2. rewrite existsb_exists. split.
  - intros ([b t] & HI & H). cbn [fst snd] in H. apply In_cells in HI. exists b, t. split; [apply HI|]. split; [apply HI|].
    cbn in H. destruct (f b t); try discriminate. reflexivity.
  - intros (b & t & Hb & Ht & E). exists (b, t). split; [apply cells_In; assumption|]. cbn [fst snd]. rewrite E. reflexivity.
Qed.
Lemma any_nan3_spec (f : nat -> nat -> nat -> xr) :
  any_nan3 f = true <-> exists k b t, (k < 7)%nat /\ (b < 2)%nat /\ (t < 4)%nat /\ f k b t = NaN.
Proof.
  unfold any_nan3. rewrite existsb_exists. split.
  - intros (k & HI & H). apply in_seq in HI. apply any_nan2_spec in H. destruct H as (b & t & H). exists k, b, t. split; [lia|exact H].
  - intros (k & b & t & Hk & H). exists k. split; [apply in_seq; lia|]. apply any_nan2_spec. eauto.
Qed.

Lemma sample_wxx_fin k b t : (k < 7)%nat -> (b < 2)%nat -> (t < 4)%nat -> exists r, sample_wxx (T := xr) k b t = Fin r.
Proof.
  intros Hk Hb Ht. do 7 (destruct k as [|k]; [destruct b as [|[|b]]; [| |lia];
    (destruct t as [|[|[|[|t]]]]; [| | | |lia]); cbn [sample_wxx tab3 tab2 nth];
    (eexists; apply lit_xr; lia)|]). lia.
Qed.

Lemma cnt_le {A} (P Q : A -> bool) l : (cnt (fun x => P x && Q x) l <= cnt P l)%nat.
Proof. induction l as [|a l IH]; [reflexivity|]. rewrite !cnt_cons. destruct (P a), (Q a); cbn; lia. Qed.
Lemma n_cell_and_le P m d b c : (n_cell_and P m d b c <= n_cell m d b c)%nat.
Proof. apply (cnt_le (in_cell m (osums d) b c) (P d)). Qed.

Lemma ratio_div a b : (a <= b)%nat ->
  (Fin (INR a) / Fin (INR b))%num = if Nat.eqb b 0 then NaN else Fin (ratio a b).
Proof.
  intro H. destruct (Nat.eqb_spec b 0) as [->|Hb].
  - assert (a = 0)%nat as -> by lia. cbn. destruct (Reqb_spec 0 0); [|lra]. reflexivity.
  - apply xdiv_Fin. apply not_0_INR. exact Hb.
Qed.

Lemma osums_nonneg d : Forall nonneg d -> Forall nonneg (osums d).
Proof.
  unfold osums. induction d as [|a|a b d IH] using pairs_ind; intro F; [constructor|constructor|].
  inversion F as [|? ? Ha F1]; subst. inversion F1 as [|? ? Hb F2]; subst. cbn [pairs map fst snd]. constructor; [|apply IH, F2].
  destruct a as [a|], b as [b|]; cbn in *; try exact I. lra.
Qed.
Lemma osums_length d : length (osums d) = length (pairs d).
Proof. unfold osums. apply map_length. Qed.
Lemma pairs_nonneg d (ts : list nat) : Forall nonneg d ->
  Forall (fun q => nonneg (q_x q) /\ nonneg (q_y q)) (combine (pairs d) ts).
Proof.
  revert ts. induction d as [|a|a b d IH] using pairs_ind; intros ts F; [constructor|constructor|].
  inversion F as [|? ? Ha F1]; subst. inversion F1 as [|? ? Hb F2]; subst. cbn [pairs].
  destruct ts as [|t ts]; [constructor|]. cbn [combine]. constructor; [split; assumption|apply IH, F2].
Qed.

Lemma seventh_xr : (n1 / n_ofZ 7)%num = Fin (1 / 7).
Proof. rewrite n1_xr. change (n_ofZ 7) with (Fin 7). apply xdiv_Fin. lra. Qed.

Lemma check_passes w b t : (b < 2)%nat -> (t < 4)%nat -> (forall k, (k < 7)%nat -> w k b t = Fin (1 / 7)) ->
  weight_check_fails (T := xr) w = false.
Proof.
  intros Hb Ht E. unfold weight_check_fails.
  assert (AN : existsb (fun c => negb (is0 (fold_left (fun acc k => (acc + w k (fst c) (snd c))%num) (seq 0 7) n0))) cells = true).
  { apply existsb_exists. exists (b, t). split; [apply cells_In; assumption|]. cbn [seq fold_left fst snd].
    rewrite !E by lia. rewrite n0_xr, !xadd_Fin. unfold is0. rewrite n0_xr, xeqb_Fin.
    match goal with |- negb (Reqb ?x 0) = _ => destruct (Reqb_spec x 0); [lra|reflexivity] end. }
  rewrite AN, n1_xr, !lit_xr, !xltb_Fin by lia. cbn.
  match goal with |- (Rltb ?a ?b || Rltb ?c ?d)%bool = _ => destruct (Rltb_spec a b), (Rltb_spec c d) end; try reflexivity; exfalso; lra.
Qed.

Lemma agg_exact pct perc s d m : map snd s = map to_xr d -> Forall nonneg d -> (2 <= length (pairs d))%nat ->
  pct (filter rain (map to_xr (osums d))) = Ok m ->
  exists c, aggregate_precipitation pct perc s = Ok (c, pair_sums s) /\
    threshold c = [m] /\ percentile c = perc /\
    (all_cells_seen m d -> is_statistics m d c) /\
    ((exists b t, (b < 2)%nat /\ (t < 4)%nat /\ n_cell m d b t = 0%nat) ->
       p01 c = sample_p01 /\ p10 c = sample_p10 /\ pxx c = sample_pxx /\ wxx c = sample_wxx).
Proof.
  intros Es NN HL Hm. unfold aggregate_precipitation.
  rewrite (pair_sums_values s d Es), Hm. cbn [bind]. rewrite map_length.
  destruct (box_types_ok (osums d) (osums_nonneg d NN) ltac:(rewrite osums_length; exact HL) (length (osums d)) 0 ltac:(lia))
    as (ts & Ets & Lts & Cts).
  rewrite Ets. cbn [bind].
  assert (Lts' : length ts = length (pairs d)) by (rewrite Lts; apply osums_length).
  destruct (data_quads d ts Lts') as ((rest & E1 & L1) & E2 & E3).
  assert (R0 : rep (counts0 (T := xr)) {| t_nb := fun _ _ => 0%nat; t_nbxx := fun _ _ => 0%nat; t_01 := fun _ _ => 0%nat;
    t_10 := fun _ _ => 0%nat; t_xx := fun _ _ => 0%nat; t_w := fun _ _ _ => 0%nat |}) by (repeat split; reflexivity).
  destruct (examine_ok m (combine (pairs d) ts) (pairs_nonneg d ts NN) counts0 _ rest L1 R0) as (k & Ek & R).
  assert (EX : examine m (values s) (map to_xr (osums d)) ts counts0 = inl k).
  { rewrite <- Ek. unfold values. rewrite Es, E1, E2. rewrite E3 at 3. reflexivity. }
  rewrite EX. clear EX Ek E1 E2 E3 R0.
  assert (C : forall j, (j < length (pairs d))%nat -> owet (nth j (osums d) None) = true -> col_of (nth j ts 0%nat) = ocolumn (osums d) j).
  { intros j Hj Hw. apply (Cts j); [rewrite osums_length; exact Hj|exact Hw]. }
  destruct R as (R1 & R2 & R3 & R4 & R5 & R6). cbn [sum_tables t_nb t_nbxx t_01 t_10 t_xx t_w] in *.
  assert (N1 : forall b c, k_nb k b c = Fin (INR (n_cell m d b c))).
  { intros b c. rewrite R1, Nat.add_0_r. do 2 f_equal.
    transitivity (cnt (fun q => q_cell m b c q && true) (combine (pairs d) ts)).
    - apply cnt_ext_in. intros. rewrite andb_true_r. reflexivity.
    - rewrite (quad_count m d ts (fun _ _ => true) (fun _ => true)) by auto. unfold n_cell_and, n_cell, number.
      f_equal. apply filter_ext. intro. apply andb_true_r. }
  assert (N3 : forall b c, k_01 k b c = Fin (INR (n_cell_and branch01 m d b c))).
  { intros b c. rewrite R3, Nat.add_0_r. do 2 f_equal. apply (quad_count m d ts branch01); auto.
    intros j x y t _ E. unfold branch01. rewrite E. reflexivity. }
  assert (N4 : forall b c, k_10 k b c = Fin (INR (n_cell_and branch10 m d b c))).
  { intros b c. rewrite R4, Nat.add_0_r. do 2 f_equal. apply (quad_count m d ts branch10); auto.
    intros j x y t _ E. unfold branch10. rewrite E. reflexivity. }
  assert (N2 : forall b c, k_nbxx k b c = Fin (INR (n_cell_and branchxx m d b c))).
  { intros b c. rewrite R2, Nat.add_0_r. do 2 f_equal. apply (quad_count m d ts branchxx); auto.
    intros j x y t _ E. unfold branchxx. rewrite E. reflexivity. }
  assert (N5 : forall b c, k_xx k b c = Fin (INR (n_cell_and branchxx m d b c))).
  { intros b c. rewrite R5, Nat.add_0_r. do 2 f_equal. apply (quad_count m d ts branchxx); auto.
    intros j x y t _ E. unfold branchxx. rewrite E. reflexivity. }
  assert (N6 : forall i b c, (i < 7)%nat -> k_w k i b c
     = Fin (INR (n_cell_and (fun d j => branchxx d j && share_in i d j) m d b c))).
  { intros i b c Hi. rewrite R6, Nat.add_0_r. do 2 f_equal.
    transitivity (cnt (fun q => q_cell m b c q && (q_xx q && q_share i q)) (combine (pairs d) ts)).
    - apply cnt_ext_in. intros q _. rewrite (proj2 (Nat.ltb_lt i 7) Hi), andb_true_r. symmetry. apply andb_assoc.
    - apply (quad_count m d ts (fun d j => branchxx d j && share_in i d j)); auto.
      intros j x y t _ E. unfold branchxx, share_in. rewrite E. reflexivity. }
  clear R1 R2 R3 R4 R5 R6 Cts C Lts Lts' Ets ts.
  set (c0 := {| p01 := fun b t => (k_01 k b t / k_nb k b t)%num; p10 := fun b t => (k_10 k b t / k_nb k b t)%num;
                pxx := fun b t => (k_xx k b t / k_nb k b t)%num; wxx := fun j b t => (k_w k j b t / k_nbxx k b t)%num;
                threshold := [m]; percentile := perc |}).
  assert (D1 : forall b t, p01 c0 b t = if Nat.eqb (n_cell m d b t) 0 then NaN else Fin (ratio (n_cell_and branch01 m d b t) (n_cell m d b t))).
  { intros. cbn [p01 c0]. rewrite N1, N3. apply ratio_div, n_cell_and_le. }
  assert (D2 : forall b t, p10 c0 b t = if Nat.eqb (n_cell m d b t) 0 then NaN else Fin (ratio (n_cell_and branch10 m d b t) (n_cell m d b t))).
  { intros. cbn [p10 c0]. rewrite N1, N4. apply ratio_div, n_cell_and_le. }
  assert (D3 : forall b t, pxx c0 b t = if Nat.eqb (n_cell m d b t) 0 then NaN else Fin (ratio (n_cell_and branchxx m d b t) (n_cell m d b t))).
  { intros. cbn [pxx c0]. rewrite N1, N5. apply ratio_div, n_cell_and_le. }
  assert (D4 : forall i b t, (i < 7)%nat -> wxx c0 i b t = if Nat.eqb (n_cell_and branchxx m d b t) 0 then NaN
     else Fin (ratio (n_cell_and (fun d j => branchxx d j && share_in i d j) m d b t) (n_cell_and branchxx m d b t))).
  { intros i b t Hi. cbn [wxx c0]. rewrite N2, N6 by exact Hi. apply ratio_div.
    unfold n_cell_and, number. rewrite (filter_ext _ (fun j => (in_cell m (osums d) b t j && branchxx d j) && share_in i d j))
      by (intro; apply andb_assoc). apply (cnt_le (fun j => in_cell m (osums d) b t j && branchxx d j) (share_in i d)). }
  assert (AN : any_nan2 (p01 c0) || any_nan2 (p10 c0) || any_nan2 (pxx c0)
               = existsb (fun c => Nat.eqb (n_cell m d (fst c) (snd c)) 0) cells).
  { assert (G : forall f (num : nat -> nat -> nat),
       (forall b t, f b t = if Nat.eqb (n_cell m d b t) 0 then NaN else Fin (ratio (num b t) (n_cell m d b t))) ->
       any_nan2 f = existsb (fun c => Nat.eqb (n_cell m d (fst c) (snd c)) 0) cells).
    { intros f num Hf. unfold any_nan2. induction cells as [|[b t] l IH]; [reflexivity|]. cbn [existsb fst snd].
      rewrite IH, Hf. destruct (Nat.eqb (n_cell m d b t) 0); reflexivity. }
    rewrite (G _ _ D1), (G _ _ D2), (G _ _ D3). rewrite !orb_diag. reflexivity. }
  rewrite AN.
  destruct (existsb (fun c => Nat.eqb (n_cell m d (fst c) (snd c)) 0) cells) eqn:EB.
  - (* fallback *)
    assert (AW : any_nan3 (wxx (fill_with_sample_data c0)) = false).
    { apply not_true_iff_false. rewrite any_nan3_spec. intros (i & b & t & Hi & Hb & Ht & E).
      destruct (sample_wxx_fin i b t Hi Hb Ht) as (r & Er). change (sample_wxx (T := xr) i b t = NaN) in E. rewrite Er in E. discriminate. }
    rewrite AW. exists (fill_with_sample_data c0). split; [reflexivity|]. split; [reflexivity|]. split; [reflexivity|].
    split; [|intros _; repeat split; reflexivity].
    intro AS. exfalso. apply existsb_exists in EB. destruct EB as ([b t] & HI & E). apply In_cells in HI.
    apply Nat.eqb_eq in E. apply (AS b t); [apply HI|apply HI|exact E].
  - (* every cell observed *)
    assert (ALL : forall b t, (b < 2)%nat -> (t < 4)%nat -> n_cell m d b t <> 0%nat).
    { intros b t Hb Ht E. rewrite <- not_true_iff_false in EB. apply EB, existsb_exists. exists (b, t).
      split; [apply cells_In; assumption|]. apply Nat.eqb_eq. exact E. }
    assert (OBS : forall (c : casc xr), p01 c = p01 c0 -> p10 c = p10 c0 -> pxx c = pxx c0 ->
       (forall i b t, (i < 7)%nat -> (b < 2)%nat -> (t < 4)%nat -> wxx c i b t = if n_isnan (wxx c0 i b t) then Fin (1/7) else wxx c0 i b t) ->
       is_statistics m d c).
    { intros c H1 H2 H3 H4. split; intros.
      - rewrite H1, D1. destruct (Nat.eqb_spec (n_cell m d b t) 0) as [E|]; [|reflexivity]. destruct (ALL b t); assumption.
      - rewrite H2, D2. destruct (Nat.eqb_spec (n_cell m d b t) 0) as [E|]; [|reflexivity]. destruct (ALL b t); assumption.
      - rewrite H3, D3. destruct (Nat.eqb_spec (n_cell m d b t) 0) as [E|]; [|reflexivity]. destruct (ALL b t); assumption.
      - rewrite H4, D4 by assumption. destruct (Nat.eqb (n_cell_and branchxx m d b t) 0); reflexivity. }
    assert (NONE : (exists b t, (b < 2)%nat /\ (t < 4)%nat /\ n_cell m d b t = 0%nat) -> False).
    { intros (b & t & Hb & Ht & E). exact (ALL b t Hb Ht E). }
    destruct (any_nan3 (wxx c0)) eqn:AW.
    + apply any_nan3_spec in AW. destruct AW as (i & b & t & Hi & Hb & Ht & E).
      rewrite D4 in E by exact Hi. destruct (Nat.eqb_spec (n_cell_and branchxx m d b t) 0) as [Z|]; [|discriminate].
      rewrite seventh_xr.
      rewrite (check_passes _ b t Hb Ht).
      2:{ intros j Hj. cbv beta. rewrite D4 by exact Hj. rewrite Z. reflexivity. }
      eexists. split; [reflexivity|]. split; [reflexivity|]. split; [reflexivity|]. split.
      * intros _. apply OBS; try reflexivity.
      * intro H. destruct (NONE H).
    + exists c0. split; [reflexivity|]. split; [reflexivity|]. split; [reflexivity|]. split.
      * intros _. apply OBS; try reflexivity. intros i b t Hi Hb Ht.
        destruct (wxx c0 i b t) eqn:E; try reflexivity. exfalso.
        rewrite <- not_true_iff_false in AW. apply AW, any_nan3_spec. exists i, b, t. auto.
      * intro H. destruct (NONE H).
Qed.

(** ** errors *)
Lemma agg_pct_error {T} {N : Num T} pct perc (s : series T) e :
  pct (filter rain (values (pair_sums s))) = Err e -> aggregate_precipitation pct perc s = Err e.
Proof. intro H. unfold aggregate_precipitation. rewrite H. reflexivity. Qed.

(** ** the statistics are distributions *)
Lemma number_split (P Q R S : nat -> bool) n :
  (forall j, (j < n)%nat -> (if P j then 1 else 0) = (if P j && Q j then 1 else 0) + (if P j && R j then 1 else 0) + (if P j && S j then 1 else 0))%nat ->
  number P n = (number (fun j => P j && Q j) n + number (fun j => P j && R j) n + number (fun j => P j && S j) n)%nat.
Proof.
  intro H. unfold number.
  assert (G : forall l, (forall j, In j l -> (j < n)%nat) ->
    cnt P l = (cnt (fun j => P j && Q j) l + cnt (fun j => P j && R j) l + cnt (fun j => P j && S j) l)%nat).
  { induction l as [|j l IH]; intro HI; [reflexivity|]. rewrite !cnt_cons, IH by (intros; apply HI; right; assumption).
    specialize (H j (HI j (or_introl eq_refl))). lia. }
  apply G. intros j Hj. apply in_seq in Hj. lia.
Qed.

Lemma pair_nonneg d j : Forall nonneg d -> nonneg (fst (pair_at d j)) /\ nonneg (snd (pair_at d j)).
Proof.
  unfold pair_at. revert j. induction d as [|a|a b d IH] using pairs_ind; intros j F.
  - destruct j; split; exact I.
  - destruct j; split; exact I.
  - inversion F as [|? ? Ha F1]; subst. inversion F1 as [|? ? Hb F2]; subst. destruct j; [split; assumption|]. apply IH, F2.
Qed.
Lemma osum_at d j : (j < length (pairs d))%nat -> nth j (osums d) None = osum (fst (pair_at d j)) (snd (pair_at d j)).
Proof.
  intro Hj. unfold osums, pair_at. set (F := fun p : amt * amt => osum (fst p) (snd p)).
  rewrite nth_indep with (d' := F (None, None)) by (rewrite map_length; exact Hj). apply (map_nth F).
Qed.

Lemma branches_partition m d b c : Forall nonneg d ->
  n_cell m d b c = (n_cell_and branch01 m d b c + n_cell_and branch10 m d b c + n_cell_and branchxx m d b c)%nat.
Proof.
  intro NN. unfold n_cell, n_cell_and. apply (number_split _ (branch01 d) (branch10 d) (branchxx d)). intros j Hj.
  unfold in_cell. rewrite osum_at by exact Hj. unfold branch01, branch10, branchxx.
  destruct (pair_nonneg d j NN) as [H1 H2]. destruct (pair_at d j) as [x y]. cbn [fst snd] in *.
  destruct x as [x|]; [|cbn; reflexivity]. destruct y as [y|]; [|cbn; reflexivity].
  cbn [osum owet odry] in *. rewrite (not_wet_dry x H1), (not_wet_dry y H2). cbn in H1, H2.
  destruct (Rltb_spec 0 (x + y)) as [W|W]; [|reflexivity].
  cbn [andb]. destruct (_ && _); [|reflexivity].
  destruct (Reqb_spec x 0), (Reqb_spec y 0); cbn; try reflexivity. exfalso; lra.
Qed.

Lemma shares_partition m d b c : Forall nonneg d ->
  n_cell_and branchxx m d b c
  = fold_right plus 0%nat (map (fun k => n_cell_and (fun d j => branchxx d j && share_in k d j) m d b c) (seq 0 7)).
Proof.
  intro NN. unfold n_cell_and, number.
  assert (G : forall l,
    cnt (fun j => in_cell m (osums d) b c j && branchxx d j) l
    = fold_right plus 0%nat (map (fun k => cnt (fun j => in_cell m (osums d) b c j && (branchxx d j && share_in k d j)) l) (seq 0 7))).
  { induction l as [|j l IH]; [reflexivity|]. rewrite cnt_cons, IH. clear IH.
    assert (E : (if in_cell m (osums d) b c j && branchxx d j then 1%nat else 0%nat)
      = fold_right plus 0%nat (map (fun k => if in_cell m (osums d) b c j && (branchxx d j && share_in k d j) then 1%nat else 0%nat) (seq 0 7))).
    { destruct (in_cell m (osums d) b c j); [|reflexivity]. destruct (branchxx d j) eqn:B; [|reflexivity]. cbn [andb].
      unfold branchxx in B. unfold share_in. destruct (pair_nonneg d j NN) as [H1 H2]. destruct (pair_at d j) as [x y].
      destruct x as [x|]; [|discriminate]. destruct y as [y|]; [|cbn in B; rewrite andb_false_r in B; discriminate].
      cbn [fst snd nonneg owet] in *. destruct (Rltb_spec 0 x); [|discriminate]. destruct (Rltb_spec 0 y); [|discriminate].
      set (w := x / (x + y)).
      assert (HW : 0 < w <= 1).
      { unfold w. split.
        - apply Rmult_lt_0_compat; [lra|]. apply Rinv_0_lt_compat. lra.
        - apply Rmult_le_reg_r with (x + y); [lra|]. unfold Rdiv. rewrite Rmult_assoc, Rinv_l by lra. lra. }
      destruct (wclass_exists w HW) as (k & Hk & Bk).
      assert (G : forall i, (i < 7)%nat -> Rltb (wbound i) w && Rleb w (wbound (S i)) = Nat.eqb i k).
      { intros i Hi. destruct (Nat.eqb_spec i k) as [->|NE].
        - destruct (Rltb_spec (wbound k) w), (Rleb_spec w (wbound (S k))); try reflexivity; exfalso; lra.
        - destruct (Rltb_spec (wbound i) w), (Rleb_spec w (wbound (S i))); try reflexivity.
          exfalso. apply NE. apply (wclass_unique w); auto. }
      cbn [seq map fold_right]. repeat (rewrite G by lia). clear G Bk.
      do 7 (destruct k as [|k]; [reflexivity|]). lia. }
    rewrite E. clear E. generalize (seq 0 7). induction l0 as [|k ks IH]; [reflexivity|].
    cbn [map fold_right]. rewrite cnt_cons. lia. }
  apply G.
Qed.

Lemma ratio_nonneg a b : 0 <= ratio a b.
Proof.
  unfold ratio. destruct b as [|b].
  - cbn [INR]. unfold Rdiv. rewrite Rinv_0. lra.
  - apply Rmult_le_pos; [apply pos_INR|]. apply Rlt_le, Rinv_0_lt_compat. apply lt_0_INR. lia.
Qed.
Lemma ratio_sum3 a b c n : (n <> 0)%nat -> n = (a + b + c)%nat -> ratio a n + ratio b n + ratio c n = 1.
Proof.
  intros H E. unfold ratio. assert (INR n <> 0) by (apply not_0_INR; exact H).
  replace (INR a / INR n + INR b / INR n + INR c / INR n) with ((INR a + INR b + INR c) / INR n) by (field; assumption).
  rewrite <- !plus_INR, <- E. field. assumption.
Qed.
Lemma Rsum_ratio ns n : (n <> 0)%nat -> n = fold_right plus 0%nat ns -> Rsum (map (fun a => ratio a n) ns) = 1.
Proof.
  intros H E. assert (Hn : INR n <> 0) by (apply not_0_INR; exact H).
  assert (G : Rsum (map (fun a => ratio a n) ns) = INR (fold_right plus 0%nat ns) / INR n).
  { clear E. unfold ratio, Rsum. induction ns as [|a ns IH]; [cbn [map fold_right INR]; unfold Rdiv; lra|].
    cbn [map fold_right]. rewrite plus_INR, IH. field. exact Hn. }
  rewrite G, <- E. field. exact Hn.
Qed.

Lemma stats_distribution m d c : Forall nonneg d -> all_cells_seen m d -> is_statistics m d c ->
  forall b t, (b < 2)%nat -> (t < 4)%nat ->
  exists x y z, p01 c b t = Fin x /\ p10 c b t = Fin y /\ pxx c b t = Fin z /\
    0 <= x /\ 0 <= y /\ 0 <= z /\ x + y + z = 1.
Proof.
  intros NN AS [H1 H2 H3 _] b t Hb Ht. rewrite H1, H2, H3 by assumption. do 3 eexists.
  repeat (split; [first [reflexivity|apply ratio_nonneg]|]).
  apply ratio_sum3; [apply AS; assumption|]. apply branches_partition. exact NN.
Qed.

Lemma weights_distribution m d c : Forall nonneg d -> is_statistics m d c ->
  forall b t, (b < 2)%nat -> (t < 4)%nat ->
  exists w, (forall k, (k < 7)%nat -> wxx c k b t = Fin (w k) /\ 0 <= w k) /\ Rsum (map w (seq 0 7)) = 1 /\
    (n_cell_and branchxx m d b t = 0%nat -> forall k, (k < 7)%nat -> w k = 1 / 7).
Proof.
  intros NN [_ _ _ H4] b t Hb Ht.
  destruct (Nat.eq_dec (n_cell_and branchxx m d b t) 0) as [E|E].
  - exists (fun _ => 1 / 7). split; [|split].
    + intros k Hk. rewrite H4 by assumption. rewrite E. split; [reflexivity|lra].
    + unfold Rsum. cbn [seq map fold_right]. lra.
    + reflexivity.
  - exists (fun k => ratio (n_cell_and (fun d j => branchxx d j && share_in k d j) m d b t) (n_cell_and branchxx m d b t)).
    split; [|split].
    + intros k Hk. rewrite H4 by assumption. destruct (Nat.eqb_spec (n_cell_and branchxx m d b t) 0); [contradiction|].
      split; [reflexivity|apply ratio_nonneg].
    + rewrite <- (map_map (fun k => n_cell_and (fun d j => branchxx d j && share_in k d j) m d b t) (fun a => ratio a _)).
      apply Rsum_ratio; [exact E|]. apply shares_partition. exact NN.
    + contradiction.
Qed.

(** ** totals *)
Lemma pair_sums_total (s : series xr) xs : map snd s = map Fin xs -> Nat.even (length xs) = true ->
  exists ys, map snd (pair_sums s) = map Fin ys /\ Rsum ys = Rsum xs.
Proof.
  revert xs. induction s as [|p|[t1 x] [t2 y] s IH] using pairs_ind; intros xs E EV.
  - destruct xs; [|discriminate]. exists []. split; reflexivity.
  - destruct xs as [|a [|b xs]]; discriminate.
  - destruct xs as [|a [|b xs]]; try discriminate. cbn [map snd] in E. injection E as -> -> E.
    destruct (IH xs E EV) as (ys & E1 & E2). exists ((a + b) :: ys). cbn [pair_sums map snd]. rewrite E1, xadd_Fin.
    split; [reflexivity|]. unfold Rsum in *. cbn [fold_right]. rewrite E2. lra.
Qed.
