(** Estimated cascade statistics in binary64: tables are distributions up to rounding. *)
From Coq Require Import ZArith List Bool Lia Reals Lra Floats Permutation.
From Flocq Require Import Core IEEE754.BinarySingleNaN IEEE754.PrimFloat.
From Verif Require Import Py Num Cal Series SpecBase CascadeModel SpecCascade AggModel SpecBuild AggProofs AggExact BuildProofs
  F64 CascadeFloat CascadeRound FiveRound ErrCalc SpecSample PropsSample SpecAggRound.
Import ListNotations.
Open Scope R_scope.
Notation float := PrimFloat.float (only parsing).

(** ** missing values *)
Lemma nan_prim x : PrimFloat.is_nan x = true -> Prim2B x = B754_nan.
Proof. rewrite is_nan_equiv. destruct (Prim2B x); cbn; try discriminate. reflexivity. Qed.
Lemma nan_of_prim x : Prim2B x = B754_nan -> PrimFloat.is_nan x = true.
Proof. rewrite is_nan_equiv. intros ->. reflexivity. Qed.
Lemma nan_gt x y : PrimFloat.is_nan y = true -> (x <? y)%float = false.
Proof. intro H. apply nan_prim in H. rewrite ltb_equiv, H. destruct (Prim2B x) as [[]|[]| |[] ? ? ?]; reflexivity. Qed.
Lemma nan_add_l x y : PrimFloat.is_nan x = true -> PrimFloat.is_nan (x + y)%float = true.
Proof. intro H. apply nan_of_prim. rewrite add_equiv, (nan_prim _ H). reflexivity. Qed.
Lemma nan_add_r x y : PrimFloat.is_nan y = true -> PrimFloat.is_nan (x + y)%float = true.
Proof. intro H. apply nan_of_prim. rewrite add_equiv, (nan_prim _ H). destruct (Prim2B x); reflexivity. Qed.
Lemma fin_not_nan x : ffin x -> PrimFloat.is_nan x = false.
Proof. unfold ffin. rewrite is_nan_equiv. destruct (Prim2B x); cbn; try discriminate; reflexivity. Qed.

(** ** values of the record and of its sums *)
Definition amount_in (E : Z) (x : float) : Prop :=
  PrimFloat.is_nan x = true \/ (ffin x /\ (fval x = 0 \/ bpow radix2 (-300) <= fval x <= bpow radix2 E)).

Lemma recorded_amount x : recorded x -> amount_in 300 x.
Proof.
  intros [H|[H|H]]; [left; exact H| |].
  - right. assert (F : ffin x).
    { unfold ffin. rewrite eqb_equiv in H. destruct (Prim2B x) as [[]|[]| |[] ? ? ?]; cbn in H |- *; try discriminate; reflexivity. }
    split; [exact F|left]. destruct (feqb_correct x 0%float F eq_refl) as [V|]; [exact V|discriminate].
  - apply andb_true_iff in H as [H1 H2].
    assert (F : ffin x) by (exact (between_finite 0x1p-300%float x 0x1p300%float eq_refl eq_refl H1 H2)). right. split; [exact F|right].
    destruct (fleb_correct 0x1p-300%float x eq_refl F) as [V1|]; [|discriminate].
    destruct (fleb_correct x 0x1p300%float F eq_refl) as [V2|]; [|discriminate].
    assert (A : fval 0x1p-300%float = bpow radix2 (-300)) by (unfold fval; vm_compute; lra).
    assert (B : fval 0x1p300%float = bpow radix2 300) by (unfold fval; vm_compute; lra).
    lra.
Qed.

Lemma amount_cases E x : amount_in E x ->
  (PrimFloat.is_nan x = true /\ rain x = false) \/
  (ffin x /\ fval x = 0 /\ rain x = false /\ is0 x = true) \/
  (ffin x /\ bpow radix2 (-300) <= fval x <= bpow radix2 E /\ rain x = true /\ is0 x = false).
Proof.
  unfold rain, is0. cbn [n_ltb n_eqb Num_f64]. intros [H|(F & [V|V])].
  - left. split; [exact H|apply nan_gt, H].
  - right. left. split; [exact F|]. split; [exact V|]. split.
    + destruct (fltb_correct n0 x ffin_zero F) as [L|]; [rewrite fval_zero in L; lra|reflexivity].
    + destruct (feqb_correct x n0 F ffin_zero) as [|C]; [reflexivity|]. exfalso. apply C. rewrite fval_zero. exact V.
  - right. right. split; [exact F|]. split; [exact V|]. pose proof (bpow_gt_0 radix2 (-300)) as P. split.
    + destruct (fltb_correct n0 x ffin_zero F) as [L|C]; [reflexivity|]. exfalso. apply C. rewrite fval_zero. lra.
    + destruct (feqb_correct x n0 F ffin_zero) as [C|]; [|reflexivity]. rewrite fval_zero in C. lra.
Qed.

Lemma bpow_cap E : (E <= 899)%Z -> 2 * bpow radix2 E <= cap.
Proof.
  intro H. change 2 with (bpow radix2 1). rewrite <- bpow_plus. unfold cap. apply bpow_le. lia.
Qed.
Lemma rnd_bpow e : (-1000 <= e)%Z -> rnd (bpow radix2 e) = bpow radix2 e.
Proof.
  intro H. apply round_generic; [typeclasses eauto|]. apply generic_format_bpow. change (Z.max (e + 1 - 53) (-1074) <= e)%Z. lia.
Qed.
Lemma amount_add E x y : (0 <= E <= 400)%Z -> amount_in E x -> amount_in E y -> amount_in (E + 1) (x + y)%float.
Proof.
  intros HE [NX|(FX & VX)]; [intros _; left; apply nan_add_l, NX|].
  intros [NY|(FY & VY)]; [left; apply nan_add_r, NY|].
  pose proof (bpow_gt_0 radix2 (-300)) as P0. pose proof (bpow_gt_0 radix2 E) as P1.
  assert (B : fval x + fval y <= bpow radix2 (E + 1)) by (rewrite bpow_plus; change (bpow radix2 1) with 2; destruct VX, VY; lra).
  assert (N : 0 <= fval x + fval y) by (destruct VX, VY; lra).
  assert (R : rnd (fval x + fval y) <= bpow radix2 (E + 1)).
  { rewrite <- (rnd_bpow (E + 1)) by lia. apply rnd_le, B. }
  destruct (fadd_correct x y FX FY) as [EV F].
  { rewrite Rabs_pos_eq by (apply rnd_nonneg, N). pose proof cap_big. pose proof (bpow_cap (E + 1) ltac:(lia)).
    pose proof (bpow_gt_0 radix2 (E + 1)). assert (0 < cap) by apply bpow_gt_0. lra. }
  right. split; [exact F|]. rewrite EV. destruct VX as [VX|VX].
  - rewrite VX, Rplus_0_l, rnd_fval in R |- *. destruct VY as [VY|VY]; [left; exact VY|right; split; [lra|exact R]].
  - right. split; [|exact R]. rewrite <- (rnd_bpow (-300)) by lia. apply rnd_le. destruct VY; lra.
Qed.

(** ** the weight class *)
Lemma wet_share E x y : (0 <= E <= 400)%Z ->
  ffin x -> bpow radix2 (-300) <= fval x <= bpow radix2 E -> ffin y -> bpow radix2 (-300) <= fval y <= bpow radix2 E ->
  ffin (x + y)%float /\ 0 < fval (x + y)%float /\
  ffin (x / (x + y))%float /\ 0 < fval (x / (x + y))%float <= 1.
Proof.
  intros HE FX VX FY VY. pose proof (bpow_gt_0 radix2 (-300)) as P0.
  destruct (amount_add E x y HE (or_intror (conj FX (or_intror VX))) (or_intror (conj FY (or_intror VY)))) as [N|(F & V)].
  { exfalso. assert (F : ffin (x + y)%float).
    { apply fadd_correct; [exact FX|exact FY|]. apply rnd_in_range. rewrite Rabs_pos_eq by lra.
      pose proof (bpow_cap E ltac:(lia)). assert (0 < cap) by apply bpow_gt_0. lra. }
    rewrite (fin_not_nan _ F) in N. discriminate. }
  assert (EV : fval (x + y)%float = rnd (fval x + fval y)).
  { apply fadd_correct; [exact FX|exact FY|]. apply rnd_in_range. rewrite Rabs_pos_eq by lra.
    pose proof (bpow_cap E ltac:(lia)). assert (0 < cap) by apply bpow_gt_0. lra. }
  assert (GE : fval x <= fval (x + y)%float) by (rewrite EV; apply rnd_ge_fval; lra).
  assert (PS : 0 < fval (x + y)%float) by lra.
  assert (UB : fval (x + y)%float <= bpow radix2 (E + 1)) by (destruct V; [lra|tauto]).
  split; [exact F|]. split; [exact PS|].
  assert (Q1 : fval x / fval (x + y)%float <= 1) by (apply Rmult_le_reg_r with (fval (x + y)%float); [exact PS|]; unfold Rdiv; rewrite Rmult_assoc, Rinv_l by lra; lra).
  assert (Q0 : bpow radix2 (-300 - (E + 1)) <= fval x / fval (x + y)%float).
  { unfold Z.sub. rewrite bpow_plus, bpow_opp. unfold Rdiv. apply Rmult_le_compat; [lra|left; apply Rinv_0_lt_compat, bpow_gt_0|lra|].
    apply Rinv_le_contravar; assumption. }
  assert (QP : 0 <= fval x / fval (x + y)%float) by (pose proof (bpow_gt_0 radix2 (-300 - (E + 1))); lra).
  destruct (fdiv_correct x (x + y)%float FX ltac:(lra)) as [ED FD].
  { apply abs_small with (x := n1); rewrite ?fval_one; assumption. }
  split; [exact FD|]. rewrite ED. split.
  - apply Rlt_le_trans with (bpow radix2 (-300 - (E + 1))); [apply bpow_gt_0|].
    rewrite <- (rnd_bpow (-300 - (E + 1))) by lia. apply rnd_le, Q0.
  - rewrite <- fval_one. apply rnd_le_fval. rewrite fval_one. exact Q1.
Qed.

Lemma wclass_found (w : float) : ffin w -> 0 < fval w <= 1 -> exists k, wclass w = Some k /\ (k < 7)%nat.
Proof.
  intros F V. destruct (wclass w) as [k|] eqn:E.
  { exists k. split; [reflexivity|]. apply find_some in E as [I _]. apply in_seq in I. lia. }
  exfalso. unfold wclass in E.
  assert (NB : forall k, (k < 7)%nat -> (wlower k <? w)%float = true -> (w <=? wupper k)%float = false).
  { intros k Hk L. pose proof (find_none _ _ E k ltac:(apply in_seq; lia)) as X. cbv beta in X.
    change (((wlower k <? w) && (w <=? wupper k))%float = false) in X. rewrite L in X. exact X. }
  assert (STEP : forall a : float, ffin a -> (w <=? a)%float = false -> (a <? w)%float = true).
  { intros a Fa X. destruct (fleb_correct w a F Fa) as [|C]; [discriminate|].
    destruct (fltb_correct a w Fa F) as [|C']; [reflexivity|]. exfalso. lra. }
  assert (L0 : (wlower 0 <? w)%float = true).
  { change ((n0 <? w)%float = true). destruct (fltb_correct n0 w ffin_zero F) as [L|C]; [reflexivity|]. exfalso. apply C. rewrite fval_zero. lra. }
  assert (UP : forall k, (k < 6)%nat -> (wlower k <? w)%float = true -> (wlower (S k) <? w)%float = true).
  { intros k Hk L. specialize (NB k ltac:(lia) L).
    do 6 (destruct k as [|k]; [refine (STEP (wupper _) _ NB); vm_compute; reflexivity|]). lia. }
  pose proof (UP 5 ltac:(lia) (UP 4 ltac:(lia) (UP 3 ltac:(lia) (UP 2 ltac:(lia) (UP 1 ltac:(lia) (UP 0 ltac:(lia) L0))))))%nat as L6.
  specialize (NB 6%nat ltac:(lia) L6). change (wupper 6) with (n1 : float) in NB.
  destruct (fleb_correct w n1 F ffin_one) as [|C]; [discriminate|]. rewrite fval_one in C. lra.
Qed.

(** ** counts are exact *)
Definition fint (x : float) (n : nat) : Prop := ffin x /\ fval x = INR n.
Lemma fint_0 : fint n0 0.
Proof. split; [exact ffin_zero|exact fval_zero]. Qed.
Lemma fint_S x n : fint x n -> (Z.of_nat n < 2 ^ 53)%Z -> fint (x + n1)%num (S n).
Proof.
  intros [F V] H. destruct (ofZ_val (Z.of_nat (S n)) ltac:(lia)) as [FZ VZ].
  assert (E : fval x + fval n1 = fval (n_ofZ (Z.of_nat (S n)))).
  { rewrite VZ, V, fval_one, <- INR_IZR_INZ, S_INR. reflexivity. }
  destruct (fadd_correct x n1 F ffin_one) as [EA FA].
  { rewrite E, rnd_fval. apply fval_lt_big. }
  split; [exact FA|]. cbn [n_add Num_f64]. rewrite EA, E, rnd_fval, VZ, <- INR_IZR_INZ. reflexivity.
Qed.

Record tally : Type := { g01 : nat -> nat -> nat; g10 : nat -> nat -> nat; gw : nat -> nat -> nat -> nat }.
Definition seven (f : nat -> nat) : nat := (f 0 + f 1 + f 2 + f 3 + f 4 + f 5 + f 6)%nat.
Definition gxx (g : tally) (b c : nat) : nat := seven (fun k => gw g k b c).
Definition gnb (g : tally) (b c : nat) : nat := (g01 g b c + g10 g b c + gxx g b c)%nat.
Definition counted (s : counts (T := float)) (g : tally) (j : nat) : Prop := forall b c,
  fint (k_nb s b c) (gnb g b c) /\ fint (k_nbxx s b c) (gxx g b c) /\
  fint (k_01 s b c) (g01 g b c) /\ fint (k_10 s b c) (g10 g b c) /\ fint (k_xx s b c) (gxx g b c) /\
  (forall k, (k < 7)%nat -> fint (k_w s k b c) (gw g k b c)) /\ (gnb g b c <= j)%nat.
Definition tally0 : tally := {| g01 := fun _ _ => O; g10 := fun _ _ => O; gw := fun _ _ _ => O |}.
Lemma counted_0 : counted counts0 tally0 0.
Proof. intros b c. cbn. repeat (split; [exact fint_0|]). split; [intros; exact fint_0|lia]. Qed.

Definition at_cell (b c : nat) (f : nat -> nat -> nat) : nat -> nat -> nat :=
  fun b' c' => if Nat.eqb b' b && Nat.eqb c' c then S (f b' c') else f b' c'.

Lemma counted_mono s g j : counted s g j -> counted s g (S j).
Proof. intros H b c. destruct (H b c) as (A & B & C & D & E & F & G). repeat (split; [assumption|]). lia. Qed.

Lemma counted_pair E m x y ty s g j : (0 <= E <= 400)%Z -> amount_in E x -> amount_in E y ->
  (Z.of_nat j < 2 ^ 53)%Z -> counted s g j ->
  exists s' g', examine_pair m x y (x + y)%num ty s = inl s' /\ counted s' g' (S j).
Proof.
  intros HE AX AY HJ R. unfold examine_pair.
  destruct (amount_cases _ _ (amount_add E x y HE AX AY)) as [(_ & D)|[(_ & _ & D & _)|(FS & VS & W & _)]].
  1,2: exists s, g; cbn [n_add Num_f64]; rewrite D; split; [reflexivity|apply counted_mono, R].
  cbn [n_add Num_f64]. rewrite W. cbv zeta. match goal with |- context [bump (k_nb s) ?b0 ?c0] => set (b := b0); set (c := c0) end. clearbody b c.
  destruct (amount_cases _ _ AX) as [(NX & _)|[(FX & VX & RX & ZX)|(FX & VX & RX & ZX)]].
  { exfalso. pose proof (fin_not_nan _ FS) as C. rewrite (nan_add_l x y NX) in C. discriminate. }
  - destruct (amount_cases _ _ AY) as [(NY & _)|[(FY & VY & RY & ZY)|(FY & VY & RY & ZY)]].
    { exfalso. pose proof (fin_not_nan _ FS) as C. rewrite (nan_add_r x y NY) in C. discriminate. }
    { exfalso. pose proof (bpow_gt_0 radix2 (-300)) as P. destruct (fadd_correct x y FX FY) as [EV _].
      - rewrite VX, VY, Rplus_0_l, rnd_0, Rabs_R0. apply bpow_gt_0.
      - rewrite VX, VY, Rplus_0_l, rnd_0 in EV. lra. }
    rewrite RX, RY, ZX, ZY. cbn [andb]. eexists. exists {| g01 := at_cell b c (g01 g); g10 := g10 g; gw := gw g |}. split; [reflexivity|].
    intros b' c'. destruct (R b' c') as (R1 & R2 & R3 & R4 & R5 & R6 & R7).
    unfold gnb, gxx, at_cell, bump in *. cbn [g01 g10 gw k_nb k_nbxx k_01 k_10 k_xx k_w].
    destruct (Nat.eqb b' b && Nat.eqb c' c).
    + rewrite !Nat.add_succ_l. split; [apply fint_S; [exact R1|lia]|]. split; [exact R2|]. split; [apply fint_S; [exact R3|lia]|].
      repeat (split; [assumption|]). lia.
    + repeat (split; [assumption|]). lia.
  - destruct (amount_cases _ _ AY) as [(NY & _)|[(FY & VY & RY & ZY)|(FY & VY & RY & ZY)]].
    { exfalso. pose proof (fin_not_nan _ FS) as C. rewrite (nan_add_r x y NY) in C. discriminate. }
    + rewrite RX, RY, ZX, ZY. cbn [andb]. eexists. exists {| g01 := g01 g; g10 := at_cell b c (g10 g); gw := gw g |}. split; [reflexivity|].
      intros b' c'. destruct (R b' c') as (R1 & R2 & R3 & R4 & R5 & R6 & R7).
      unfold gnb, gxx, at_cell, bump in *. cbn [g01 g10 gw k_nb k_nbxx k_01 k_10 k_xx k_w].
      destruct (Nat.eqb b' b && Nat.eqb c' c).
      * replace (g01 g b' c' + S (g10 g b' c') + seven (fun k => gw g k b' c'))%nat
          with (S (g01 g b' c' + g10 g b' c' + seven (fun k => gw g k b' c')))%nat by lia.
        split; [apply fint_S; [exact R1|lia]|]. split; [exact R2|]. split; [exact R3|]. split; [apply fint_S; [exact R4|lia]|].
        repeat (split; [assumption|]). lia.
      * repeat (split; [assumption|]). lia.
    + rewrite RX, RY, ZX, ZY. cbn [andb].
      destruct (wet_share E x y HE FX VX FY VY) as (FXY & PXY & FW & VW).
      assert (NG : (nabs (x + y - (x + y)) >? lit 1 3)%num = false).
      { destruct (fsub_same (x + y)%float (x + y)%float) as [FD VD]; [split; [exact FXY|lra]|split; [exact FXY|lra]|reflexivity|].
        unfold nabs. cbn [n_add n_sub n_ltb Num_f64].
        destruct (fltb_correct (x + y - (x + y))%float n0 FD ffin_zero) as [L|_]; [rewrite VD, fval_zero in L; lra|].
        match goal with |- (?a <? _)%float = _ => assert (FL : ffin a) by reflexivity;
          destruct (fltb_correct a (x + y - (x + y))%float FL FD) as [L|_]; [|reflexivity] end.
        exfalso. rewrite VD in L. match type of L with fval ?a < 0 => assert (P : (0 <? a)%float = true) by reflexivity;
          destruct (fltb_correct 0%float a eq_refl FL) as [P'|]; [|discriminate]; change (fval 0%float) with (fval n0) in P'; rewrite fval_zero in P'; lra end. }
      cbn [n_add n_sub n_div Num_f64] in NG |- *. rewrite NG.
      destruct (wclass_found _ FW VW) as (k & EK & HK). rewrite EK.
      eexists. exists {| g01 := g01 g; g10 := g10 g; gw := fun k' => if Nat.eqb k' k then at_cell b c (gw g k') else gw g k' |}. split; [reflexivity|].
      intros b' c'. destruct (R b' c') as (R1 & R2 & R3 & R4 & R5 & R6 & R7).
      unfold gnb, gxx, at_cell, bump in *. cbn [g01 g10 gw k_nb k_nbxx k_01 k_10 k_xx k_w].
      destruct (Nat.eqb b' b && Nat.eqb c' c) eqn:EC.
      * assert (SV : seven (fun k0 => (if Nat.eqb k0 k then fun b'0 c'0 => if Nat.eqb b'0 b && Nat.eqb c'0 c then S (gw g k0 b'0 c'0) else gw g k0 b'0 c'0 else gw g k0) b' c')
                   = S (seven (fun k0 => gw g k0 b' c'))).
        { unfold seven. do 7 (destruct k as [|k]; [cbn [Nat.eqb]; rewrite EC; lia|]). lia. }
        rewrite SV. rewrite !Nat.add_succ_r.
        split; [apply fint_S; [exact R1|lia]|]. split; [apply fint_S; [exact R2|lia]|]. split; [exact R3|]. split; [exact R4|].
        split; [apply fint_S; [exact R5|lia]|]. split; [|lia].
        intros k' Hk'. destruct (Nat.eqb k' k) eqn:EK'; [|apply R6, Hk']. rewrite EC. apply fint_S; [apply R6, Hk'|].
        assert (gw g k' b' c' <= seven (fun k0 => gw g k0 b' c'))%nat by (unfold seven; do 7 (destruct k' as [|k']; [lia|]); lia). lia.
      * assert (SV : seven (fun k0 => (if Nat.eqb k0 k then fun b'0 c'0 => if Nat.eqb b'0 b && Nat.eqb c'0 c then S (gw g k0 b'0 c'0) else gw g k0 b'0 c'0 else gw g k0) b' c')
                   = seven (fun k0 => gw g k0 b' c')).
        { unfold seven. do 7 (destruct k as [|k]; [cbn [Nat.eqb]; rewrite EC; lia|]). lia. }
        rewrite SV. repeat (split; [assumption|]). split; [|lia].
        intros k' Hk'. destruct (Nat.eqb k' k) eqn:EK'; [rewrite EC|]; apply R6, Hk'.
Qed.

Lemma counted_all E m : (0 <= E <= 400)%Z -> forall (s : series float) vb k g j, Forall (fun p => amount_in E (snd p)) s ->
  (Z.of_nat (j + length s) < 2 ^ 53)%Z -> counted k g j ->
  exists k' g' j', examine m (values s) (values (pair_sums s)) vb k = inl k' /\ counted k' g' j'.
Proof.
  intro HE. induction s as [|p|[t1 x] [t2 y] s IH] using pairs_ind; intros vb k g j F H R.
  - exists k, g, j. split; [reflexivity|exact R].
  - exists k, g, j. destruct p. split; [reflexivity|exact R].
  - inversion F as [|? ? AX F1]. inversion F1 as [|? ? AY F2]. subst. cbn [snd] in AX, AY. cbn [length] in H.
    unfold values. cbn [pair_sums map snd examine]. destruct vb as [|ty vb]; [exists k, g, j; split; [reflexivity|exact R]|].
    destruct (counted_pair E m x y ty k g j HE AX AY ltac:(lia) R) as (k1 & g1 & E1 & R1). rewrite E1.
    apply (IH vb k1 g1 (S j) F2 ltac:(lia) R1).
Qed.

(** ** quotients of counts, literals *)
Definition near_term (x : float) (r : R) : Prop := ffin x /\ 0 <= fval x /\ 0 <= r /\ Rabs (fval x - r) <= u64 * r + eta64.

Lemma near_terms xs rs : Forall2 near_term xs rs ->
  0 <= Rsum rs /\ Rabs (Rsum (map fval xs) - Rsum rs) <= u64 * Rsum rs + INR (length xs) * eta64.
Proof.
  induction 1 as [|x r xs rs (_ & _ & P & H) _ [IH0 IH]].
  - cbn. rewrite Rminus_0_r, Rabs_R0. split; lra.
  - cbn [map Rsum fold_right length]. fold (Rsum rs). fold (Rsum (map fval xs)). rewrite S_INR. split; [lra|].
    replace (fval x + Rsum (map fval xs) - (r + Rsum rs)) with ((fval x - r) + (Rsum (map fval xs) - Rsum rs)) by ring.
    eapply Rle_trans; [apply Rabs_triang|]. lra.
Qed.
Lemma eta_tiny : 1000 * eta64 <= 1 / 10 ^ 20.
Proof.
  eapply Rle_trans; [exact eta64_small|]. unfold Rdiv. rewrite !Rmult_1_l. apply Rinv_le_contravar; [apply pow_lt; lra|].
  apply Rle_pow; [lra|lia].
Qed.
Lemma near_distribution xs rs : (length xs <= 7)%nat -> Forall2 near_term xs rs -> Rabs (Rsum rs - 1) <= 1 / 10 ^ 15 ->
  nearly_distribution (2 / 10 ^ 15) xs.
Proof.
  intros L H D. split.
  - clear L D. induction H as [|x r xs rs (F & P & _) _ IH]; constructor; [|exact IH]. split; [apply ffin_spec, F|exact P].
  - destruct (near_terms _ _ H) as [_ N]. pose proof eta_tiny. pose proof eta64_pos.
    assert (LE : INR (length xs) * eta64 <= 7 * eta64) by (apply Rmult_le_compat_r; [lra|]; apply le_INR in L; cbn [INR] in L; lra).
    apply Rabs_le_inv in N, D. unfold u64 in N. apply Rabs_le. split; nra.
Qed.

Lemma near_quotient x y a n : fint x a -> fint y n -> (a <= n)%nat -> (0 < n)%nat -> near_term (x / y)%num (INR a / INR n).
Proof.
  intros [FX VX] [FY VY] H P. assert (PN : 0 < INR n) by (apply lt_0_INR, P). pose proof (pos_INR a) as PA. apply le_INR in H.
  assert (Q0 : 0 <= INR a / INR n) by (apply Rmult_le_pos; [exact PA|left; apply Rinv_0_lt_compat, PN]).
  assert (Q1 : INR a / INR n <= 1) by (apply Rmult_le_reg_r with (INR n); [exact PN|]; unfold Rdiv; rewrite Rmult_assoc, Rinv_l by lra; lra).
  destruct (fdiv_correct x y FX) as [E F]; [lra| |].
  { rewrite VX, VY. apply abs_small with (x := n1); rewrite ?fval_one; assumption. }
  rewrite VX, VY in E. split; [exact F|]. cbn [n_div Num_f64]. rewrite E. split; [apply rnd_nonneg, Q0|]. split; [exact Q0|].
  apply rnd_err_nn, Q0.
Qed.
Lemma zero_prim x : ffin x -> fval x = 0 -> exists s, Prim2B x = B754_zero s.
Proof.
  unfold ffin, fval. destruct (Prim2B x) as [s|s| |s m e B]; intros F V; try discriminate; [eauto|].
  exfalso. cbn [B2R] in V. apply eq_0_F2R in V. destruct s; discriminate.
Qed.
Lemma nan_quotient x y a : fint x a -> fint y 0 -> a = O -> PrimFloat.is_nan (x / y)%num = true.
Proof.
  intros [FX VX] [FY VY] ->. cbn [INR] in VX, VY. destruct (zero_prim x FX VX) as [s EX], (zero_prim y FY VY) as [s' EY].
  apply nan_of_prim. cbn [n_div Num_f64]. rewrite div_equiv, EX, EY. reflexivity.
Qed.

Lemma near_lit m k r : (0 <= m <= 2 ^ 53)%Z -> (k = 15 \/ k = 16)%Z -> r = IZR m / IZR (10 ^ k) -> near_term (lit m k) r.
Proof.
  intros Hm Hk ->. destruct (ofZ_val m ltac:(lia)) as [FM VM]. unfold lit.
  assert (D : ffin (n_ofZ (10 ^ k)) /\ fval (n_ofZ (10 ^ k)) = IZR (10 ^ k)).
  { destruct Hk as [->| ->]; [apply ofZ_val; lia|]. split; [vm_compute; reflexivity|]. unfold fval. vm_compute. lra. }
  destruct D as [FD VD].
  assert (PD : 1 <= IZR (10 ^ k)) by (destruct Hk as [->| ->]; lra).
  assert (PM : 0 <= IZR m) by (apply (IZR_le 0); lia).
  assert (Q0 : 0 <= IZR m / IZR (10 ^ k)) by (apply Rmult_le_pos; [exact PM|left; apply Rinv_0_lt_compat; lra]).
  assert (Q1 : IZR m / IZR (10 ^ k) <= IZR m).
  { apply Rmult_le_reg_r with (IZR (10 ^ k)); [lra|]. unfold Rdiv. rewrite Rmult_assoc, Rinv_l by lra. nra. }
  destruct (fdiv_correct (n_ofZ m) (n_ofZ (10 ^ k)) FM) as [E F]; [lra| |].
  { rewrite VM, VD. apply abs_small with (x := n_ofZ m); [exact Q0|]. rewrite VM. exact Q1. }
  rewrite VM, VD in E. split; [exact F|]. cbn [n_div Num_f64]. rewrite E. split; [apply rnd_nonneg, Q0|]. split; [exact Q0|].
  apply rnd_err_nn, Q0.
Qed.

(** ** the tables shipped with the library *)
Lemma near_sample b t : (b < 2)%nat -> (t < 4)%nat ->
  near_term (sample_p01 b t) (shipped_p01 b t) /\ near_term (sample_p10 b t) (shipped_p10 b t) /\ near_term (sample_pxx b t) (shipped_pxx b t).
Proof.
  intros Hb Ht. each_cell b t; unfold sample_p01, sample_p10, sample_pxx, shipped_p01, shipped_p10, shipped_pxx, tab2, cell; cbn [nth];
    (split; [apply near_lit; [lia|lia|lra]|]; split; (apply near_lit; [lia|lia|lra])).
Qed.
Lemma near_sample_w k b t : (k < 7)%nat -> (b < 2)%nat -> (t < 4)%nat -> near_term (sample_wxx k b t) (shipped_w k b t).
Proof.
  intros Hk Hb Ht. do 7 (destruct k as [|k]; [each_cell b t; unfold sample_wxx, shipped_w, tab3, tab2, cell; cbn [nth];
    (apply near_lit; [lia|lia|lra])|]). lia.
Qed.

Definition row7 {A} (f : nat -> A) : list A := [f 0; f 1; f 2; f 3; f 4; f 5; f 6]%nat.
Lemma row7_ext {A} (f g : nat -> A) : (forall k, (k < 7)%nat -> f k = g k) -> row7 f = row7 g.
Proof. intro H. unfold row7. rewrite !H by lia. reflexivity. Qed.
Lemma near_row7 (f : nat -> float) (r : nat -> R) : (forall k, (k < 7)%nat -> near_term (f k) (r k)) -> Forall2 near_term (row7 f) (row7 r).
Proof. intro H. unfold row7. repeat (constructor; [apply H; lia|]). constructor. Qed.

Definition branch_rows (c01 c10 cxx : nat -> nat -> float) : Prop := forall b t, (b < 2)%nat -> (t < 4)%nat ->
  nearly_distribution (2 / 10 ^ 15) [c01 b t; c10 b t; cxx b t].
Definition weight_rows (w : nat -> nat -> nat -> float) : Prop := forall b t, (b < 2)%nat -> (t < 4)%nat ->
  nearly_distribution (2 / 10 ^ 15) (row7 (fun k => w k b t)).

Lemma sample_branches : branch_rows sample_p01 sample_p10 sample_pxx.
Proof.
  intros b t Hb Ht. destruct (near_sample b t Hb Ht) as (A & B & C). destruct (C99_nearly_distributions b t Hb Ht) as (_ & _ & _ & D & _).
  apply (near_distribution _ [shipped_p01 b t; shipped_p10 b t; shipped_pxx b t]); [cbn; lia| |].
  - repeat (constructor; [assumption|]). constructor.
  - unfold Rsum. cbn [fold_right]. rewrite Rplus_0_r, <- Rplus_assoc. exact D.
Qed.
Lemma sample_rows : weight_rows sample_wxx.
Proof.
  intros b t Hb Ht. destruct (C99_nearly_distributions b t Hb Ht) as (_ & _ & _ & _ & _ & D).
  apply (near_distribution _ (row7 (fun k => shipped_w k b t))); [cbn; lia| |].
  - apply near_row7. intros k Hk. apply near_sample_w; assumption.
  - unfold weight_sum in D. unfold row7, Rsum. cbn [fold_right]. rewrite Rplus_0_r, <- !Rplus_assoc. exact D.
Qed.

Lemma near_seventh : near_term (n1 / n_ofZ 7)%num (1 / 7).
Proof.
  destruct (ofZ_val 7 ltac:(lia)) as [F7 V7].
  replace (1 / 7) with (INR 1 / INR 7) by (cbn [INR]; lra). apply near_quotient; [split; [exact ffin_one|exact fval_one]|split; [exact F7|rewrite V7; cbn [INR]; lra]|lia|lia].
Qed.

(** ** missing cells *)
Lemma no_nan2 (f : nat -> nat -> float) : any_nan2 f = false -> forall b t, (b < 2)%nat -> (t < 4)%nat -> PrimFloat.is_nan (f b t) = false.
Proof.
  intros H b t Hb Ht. unfold any_nan2 in H. rewrite <- isnan_spec.
  destruct (f64_isnan (f b t)) eqn:E; [|reflexivity]. exfalso.
  assert (X : existsb (fun c => n_isnan (f (fst c) (snd c))) cells = true); [|congruence].
  apply existsb_exists. exists (b, t). split; [apply cells_In; assumption|exact E].
Qed.
Lemma no_nan3 (f : nat -> nat -> nat -> float) : any_nan3 f = false ->
  forall k b t, (k < 7)%nat -> (b < 2)%nat -> (t < 4)%nat -> PrimFloat.is_nan (f k b t) = false.
Proof.
  intros H k b t Hk Hb Ht. apply no_nan2; [|exact Hb|exact Ht]. destruct (any_nan2 (f k)) eqn:E; [|reflexivity]. exfalso.
  assert (X : any_nan3 f = true); [|congruence]. unfold any_nan3. apply existsb_exists. exists k. split; [apply in_seq; lia|exact E].
Qed.

Definition patched (w : nat -> nat -> nat -> float) : nat -> nat -> nat -> float :=
  fun j b t => if n_isnan (w j b t) then (n1 / n_ofZ 7)%num else w j b t.
Lemma patched_rows w : weight_rows (patched w) -> any_nan3 w = false -> weight_rows w.
Proof.
  intros H N b t Hb Ht. specialize (H b t Hb Ht). erewrite row7_ext; [exact H|]. cbv beta. intros k Hk. unfold patched.
  pose proof (no_nan3 w N k b t Hk Hb Ht) as E. rewrite <- isnan_spec in E. cbn [n_isnan Num_f64]. rewrite E. reflexivity.
Qed.
Lemma patched_sample : weight_rows (patched sample_wxx).
Proof.
  intros b t Hb Ht. erewrite row7_ext; [apply (sample_rows b t Hb Ht)|]. cbv beta. intros k Hk. unfold patched.
  destruct (near_sample_w k b t Hk Hb Ht) as (F & _). cbn [n_isnan Num_f64]. rewrite isnan_spec, (fin_not_nan _ F). reflexivity.
Qed.

Lemma counted_branches k g j : counted k g j ->
  any_nan2 (fun b t => (k_01 k b t / k_nb k b t)%num) = false ->
  branch_rows (fun b t => (k_01 k b t / k_nb k b t)%num) (fun b t => (k_10 k b t / k_nb k b t)%num) (fun b t => (k_xx k b t / k_nb k b t)%num).
Proof.
  intros R N b t Hb Ht. destruct (R b t) as (R1 & _ & R3 & R4 & R5 & _ & _). pose proof (no_nan2 _ N b t Hb Ht) as E. cbv beta in E.
  assert (P : (0 < gnb g b t)%nat).
  { destruct (Nat.eq_dec (gnb g b t) 0) as [Z|]; [|lia]. exfalso. rewrite Z in R1.
    assert (Z1 : g01 g b t = 0%nat) by (unfold gnb in Z; lia). rewrite (nan_quotient _ _ _ R3 R1 Z1) in E. discriminate. }
  apply (near_distribution _ [INR (g01 g b t) / INR (gnb g b t); INR (g10 g b t) / INR (gnb g b t); INR (gxx g b t) / INR (gnb g b t)]); [cbn; lia| |].
  - repeat (constructor; [apply near_quotient; [assumption|assumption|unfold gnb; lia|exact P]|]). constructor.
  - assert (PN : 0 < INR (gnb g b t)) by (apply lt_0_INR, P). unfold Rsum. cbn [fold_right].
    match goal with |- Rabs ?x <= _ => replace x with 0 end; [rewrite Rabs_R0; lra|].
    unfold gnb in *. rewrite !plus_INR in *. field. lra.
Qed.
Lemma counted_weights k g j : counted k g j -> weight_rows (patched (fun j b t => (k_w k j b t / k_nbxx k b t)%num)).
Proof.
  intros R b t Hb Ht. destruct (R b t) as (_ & R2 & _ & _ & _ & R6 & _).
  assert (LE : forall j, (j < 7)%nat -> (gw g j b t <= gxx g b t)%nat) by (intros i Hi; unfold gxx, seven; do 7 (destruct i as [|i]; [lia|]); lia).
  destruct (Nat.eq_dec (gxx g b t) 0) as [Z|NZ].
  - apply (near_distribution _ (row7 (fun _ => 1 / 7))); [cbn; lia| |].
    + apply near_row7. intros i Hi. unfold patched. cbn [n_isnan Num_f64]. rewrite isnan_spec. specialize (LE i Hi). rewrite Z in R2.
      rewrite (nan_quotient _ _ _ (R6 i Hi) R2) by lia. exact near_seventh.
    + unfold row7, Rsum. cbn [fold_right]. match goal with |- Rabs ?x <= _ => replace x with 0 by lra end. rewrite Rabs_R0. lra.
  - apply (near_distribution _ (row7 (fun i => INR (gw g i b t) / INR (gxx g b t)))); [cbn; lia| |].
    + apply near_row7. intros i Hi. pose proof (near_quotient _ _ _ _ (R6 i Hi) R2 (LE i Hi) ltac:(lia)) as Q.
      unfold patched. cbn [n_isnan Num_f64]. rewrite isnan_spec, (fin_not_nan _ (proj1 Q)). exact Q.
    + assert (PN : 0 < INR (gxx g b t)) by (apply lt_0_INR; lia). unfold row7, Rsum. cbn [fold_right].
      match goal with |- Rabs ?x <= _ => replace x with 0 end; [rewrite Rabs_R0; lra|].
      unfold gxx, seven in *. rewrite !plus_INR in *. field. lra.
Qed.

Lemma rows_distributions c : branch_rows (p01 c) (p10 c) (pxx c) -> weight_rows (wxx c) -> nearly_distributions (2 / 10 ^ 15) c.
Proof. intros A B b t Hb Ht. split; [apply A; assumption|exact (B b t Hb Ht)]. Qed.

(** ** one level *)
Lemma level_tables E pct perc (s : series float) c v : (0 <= E <= 400)%Z -> Forall (fun p => amount_in E (snd p)) s ->
  (Z.of_nat (length s) < 2 ^ 53)%Z -> aggregate_precipitation pct perc s = Ok (c, v) -> nearly_distributions (2 / 10 ^ 15) c.
Proof.
  intros HE F L H. unfold aggregate_precipitation in H. apply bind_Ok in H. destruct H as (m & _ & H).
  apply bind_Ok in H. destruct H as (vb & _ & H).
  destruct (counted_all E m HE s vb counts0 tally0 0%nat F ltac:(cbn; lia) counted_0) as (k & g & j & EX & R).
  rewrite EX in H. cbv zeta in H. apply (f_equal (fun r => match r with Ok (x, _) => x | Err _ => c end)) in H. cbn beta iota in H.
  pose proof (counted_branches k g j R) as CB. pose proof (counted_weights k g j R) as CW.
  set (c0 := {| p01 := fun b t => (k_01 k b t / k_nb k b t)%num; p10 := _; pxx := _; wxx := _; threshold := _; percentile := _ |}) in H.
  set (c1 := if any_nan2 (p01 c0) || any_nan2 (p10 c0) || any_nan2 (pxx c0) then fill_with_sample_data c0 else c0) in H.
  assert (C1 : branch_rows (p01 c1) (p10 c1) (pxx c1) /\ weight_rows (patched (wxx c1))).
  { unfold c1. destruct (any_nan2 (p01 c0)) eqn:N1; cbn [orb].
    - split; [exact sample_branches|exact patched_sample].
    - destruct (any_nan2 (p10 c0) || any_nan2 (pxx c0)); [split; [exact sample_branches|exact patched_sample]|].
      split; [exact (CB N1)|exact CW]. }
  clearbody c1. destruct C1 as [B W]. destruct (any_nan3 (wxx c1)) eqn:N3.
  - match type of H with (if ?x then _ else _) = _ => destruct x end; subst c.
    + apply rows_distributions; [exact sample_branches|exact sample_rows].
    + apply rows_distributions; [exact B|exact W].
  - subst c. apply rows_distributions; [exact B|apply patched_rows; assumption].
Qed.

(** ** all levels *)
Lemma pair_sums_amounts E (s : series float) : (0 <= E <= 400)%Z -> Forall (fun p => amount_in E (snd p)) s ->
  Forall (fun p => amount_in (E + 1) (snd p)) (pair_sums s).
Proof.
  intro HE. induction s as [|p|[t1 x] [t2 y] s IH] using pairs_ind; intro F; [constructor|destruct p; constructor|].
  inversion F as [|? ? AX F1]. inversion F1 as [|? ? AY F2]. subst. cbn [pair_sums]. constructor; [|apply IH, F2].
  cbn [snd] in *. apply amount_add; assumption.
Qed.
Lemma pair_sums_half (s : series float) : (2 * length (pair_sums s) <= length s)%nat.
Proof. induction s as [|p|[t1 x] [t2 y] s IH] using pairs_ind; [cbn; lia|destruct p; cbn; lia|]. cbn [pair_sums length]. lia. Qed.
Lemma agg_sums pct perc (s : series float) c v : aggregate_precipitation pct perc s = Ok (c, v) ->
  v = pair_sums s /\ exists m, pct (filter rain (values v)) = Ok m.
Proof.
  unfold aggregate_precipitation. intro H. apply bind_Ok in H. destruct H as (m & Em & H).
  apply bind_Ok in H. destruct H as (vb & _ & H). assert (V : pair_sums s = v).
  { destruct (examine _ _ _ _ _); injection H as _ H; exact H. }
  split; [symmetry; exact V|]. exists m. rewrite <- V. exact Em.
Qed.

Definition rows_total (ls : list (casc float * nat)) : nat := list_sum (map snd ls).
Lemma levels_tables pct perc : (forall m, pct [] <> Ok m) -> forall L E (s : series float) ls, (0 <= E)%Z -> (E + Z.of_nat L <= 400)%Z ->
  Forall (fun p => amount_in E (snd p)) s -> (Z.of_nat (length s) < 2 ^ 53)%Z -> levels_of pct perc L s ls ->
  length ls = L /\ (rows_total ls <= length s)%nat /\
  Forall (fun l => nearly_distributions (2 / 10 ^ 15) (fst l) /\ (exists t0, threshold (fst l) = [t0]) /\ (0 < snd l)%nat) ls.
Proof.
  intro HP. induction L as [|L IH]; intros E s ls HE HL F LE H; inversion H as [|? ? c v ls' A B]; subst.
  - split; [reflexivity|]. split; [cbn; lia|constructor].
  - destruct (agg_sums _ _ _ _ _ A) as (-> & m & Em).
    pose proof (pair_sums_half s) as PH.
    destruct (IH (E + 1)%Z (pair_sums s) ls' ltac:(lia) ltac:(lia) (pair_sums_amounts E s ltac:(lia) F) ltac:(lia) B) as (I1 & I2 & I3).
    split; [cbn [length]; lia|]. split; [unfold rows_total in *; cbn [map list_sum snd]; unfold list_sum in *; cbn [fold_right]; lia|].
    constructor; [|exact I3]. cbn [fst snd]. split; [exact (level_tables E pct perc s c _ ltac:(lia) F LE A)|].
    split; [exact (agg_threshold pct perc s c _ A)|].
    destruct (pair_sums s) as [|p v]; [|cbn; lia]. exfalso. exact (HP m Em).
Qed.

(** ** averaging *)
Definition fmean (ps : list (float * nat)) : float :=
  (fold_left (fun a q => a + fst q * n_ofZ (Z.of_nat (snd q))) ps n0 * (n1 / n_ofZ (fold_right Z.add 0%Z (map (fun q => Z.of_nat (snd q)) ps))))%num.
Definition wsum (ps : list (float * nat)) : R := Rsum (map (fun q => fval (fst q) * INR (snd q)) ps).
Definition nsum (ps : list (float * nat)) : nat := list_sum (map snd ps).

Lemma eta_40 : eta64 <= 1 / 10 ^ 40.
Proof.
  pose proof eta64_small as H. pose proof eta64_pos as P. assert (1 / 10 ^ 300 <= 1 / 10 ^ 40); [|lra].
  unfold Rdiv. rewrite !Rmult_1_l. apply Rinv_le_contravar; [apply pow_lt; lra|]. apply Rle_pow; [lra|lia].
Qed.
Lemma cap_huge : 10 ^ 100 <= cap.
Proof.
  unfold cap. apply Rle_trans with (bpow radix2 400).
  - rewrite <- (IZR_Zpower radix2 400) by lia. rewrite pow_IZR. apply IZR_le. apply Z.leb_le. reflexivity.
  - apply bpow_le. lia.
Qed.
Lemma small_range x : Rabs x <= 10 ^ 20 -> Rabs (rnd x) < big.
Proof.
  intro H. apply rnd_in_range. pose proof cap_huge as C. assert (10 ^ 20 <= 10 ^ 100) by (apply Rle_pow; [lra|lia]).
  assert (0 < 10 ^ 100) by (apply pow_lt; lra). lra.
Qed.

Definition weighed (q : float * nat) : Prop := ffin (fst q) /\ 0 <= fval (fst q) <= 2.

Lemma fold_err ps : Forall weighed ps -> forall acc A j n,
  (j + length ps <= 11)%nat -> (Z.of_nat (n + nsum ps) <= 2 ^ 53)%Z ->
  fnn acc -> 0 <= A <= 2 * INR n -> Rabs (fval acc - A) <= 3 * u64 * (INR j * A) + 3 * (INR j * eta64) ->
  let r := fold_left (fun a q => a + fst q * n_ofZ (Z.of_nat (snd q)))%num ps acc in
  fnn r /\ Rabs (fval r - (A + wsum ps)) <= 3 * u64 * (INR (j + length ps) * (A + wsum ps)) + 3 * (INR (j + length ps) * eta64) /\
  0 <= A + wsum ps <= 2 * INR (n + nsum ps).
Proof.
  induction 1 as [|[p k] ps [FP VP] _ IH]; intros acc A j n HJ HN FA HA H; cbv zeta.
  - unfold wsum, nsum. cbn [fold_left map Rsum fold_right length list_sum]. rewrite !Nat.add_0_r, Rplus_0_r. tauto.
  - cbn [fold_left fst snd]. cbn [length] in HJ. unfold nsum in HN. cbn [map list_sum snd] in HN. unfold list_sum in HN. cbn [fold_right] in HN.
    fold (list_sum (map snd ps)) in HN. fold (nsum ps) in HN. cbn [fst] in FP, VP.
    destruct (ofZ_val (Z.of_nat k) ltac:(lia)) as [FK VK]. rewrite <- INR_IZR_INZ in VK.
    pose proof (pos_INR k) as PK. pose proof (pos_INR n) as Pn.
    assert (BN : INR n + INR k <= 9007199254740992) by (rewrite <- plus_INR, INR_IZR_INZ; apply IZR_le; lia).
    set (Y := fval p * INR k) in *. assert (PY : 0 <= Y <= 2 * INR k) by (unfold Y; nra).
    pose proof eta64_pos as E0. pose proof eta_40 as E40.
    assert (EY : fval (p * n_ofZ (Z.of_nat k))%num = rnd Y /\ ffin (p * n_ofZ (Z.of_nat k))%num).
    { unfold Y. rewrite <- VK. apply fmul_correct; [exact FP|exact FK|]. rewrite VK. apply small_range. fold Y. rewrite Rabs_pos_eq by lra. lra. }
    destruct EY as [EY FY]. pose proof (rnd_err_nn Y (proj1 PY)) as RY. pose proof (rnd_nonneg Y (proj1 PY)) as NY.
    assert (J1 : 0 <= INR j <= 10) by (split; [apply pos_INR|]; rewrite INR_IZR_INZ; apply (IZR_le _ 10); lia).
    set (JA := INR j * A) in *. assert (BJA : 0 <= JA <= 10 * A) by (unfold JA; nra).
    set (JE := INR j * eta64) in *. assert (BJE : 0 <= JE <= 10 * eta64) by (unfold JE; nra).
    destruct FA as [FA NA]. apply Rabs_le_inv in H, RY.
    assert (ES : fval (acc + p * n_ofZ (Z.of_nat k))%num = rnd (fval acc + rnd Y) /\ ffin (acc + p * n_ofZ (Z.of_nat k))%num).
    { rewrite <- EY. apply fadd_correct; [exact FA|exact FY|]. rewrite EY. apply small_range. rewrite Rabs_pos_eq by lra. unfold u64 in *. lra. }
    destruct ES as [ES FS]. pose proof (rnd_rel acc (p * n_ofZ (Z.of_nat k))%num) as RS. rewrite EY, (Rabs_pos_eq (fval acc + rnd Y)) in RS by lra.
    apply Rabs_le_inv in RS.
    destruct (IH (acc + p * n_ofZ (Z.of_nat k))%num (A + Y) (S j) (n + k)%nat) as (I1 & I2 & I3).
    + lia.
    + lia.
    + split; [exact FS|]. rewrite ES. apply rnd_nonneg. lra.
    + rewrite plus_INR. lra.
    + rewrite ES, S_INR. replace ((INR j + 1) * (A + Y)) with (JA + INR j * Y + A + Y) by (unfold JA; ring).
      replace ((INR j + 1) * eta64) with (JE + eta64) by (unfold JE; ring).
      assert (PJY : 0 <= INR j * Y) by nra. unfold u64 in *. apply Rabs_le. split; lra.
    + replace (A + wsum ((p, k) :: ps)) with (A + Y + wsum ps) by (unfold wsum, Y; cbn [map Rsum fold_right fst snd]; unfold Rsum; ring).
      replace (j + length ((p, k) :: ps))%nat with (S j + length ps)%nat by (cbn [length]; lia).
      replace (n + nsum ((p, k) :: ps))%nat with (n + k + nsum ps)%nat by (unfold nsum, list_sum; cbn [map fold_right snd]; lia).
      split; [exact I1|]. split; [exact I2|exact I3].
Qed.

Lemma prod_err A iN S f h : 0 <= A <= 36028797018963968 -> 0 < iN <= 1 -> 0 <= h <= 1 / 10 ^ 40 ->
  Rabs (S - A) <= 33 * u64 * A + 33 * h -> Rabs (f - iN) <= u64 * iN + h ->
  Rabs (S * f - A * iN) <= 35 * u64 * (A * iN) + 1 / 10 ^ 21.
Proof.
  intros HA HI HH HS HF. replace (S * f - A * iN) with (A * (f - iN) + ((S - A) * iN + (S - A) * (f - iN))) by ring.
  set (q := A * iN) in *. assert (Hq : 0 <= q <= A) by (unfold q; nra).
  assert (Ah : 0 <= A * h <= 36028797018963968 * (1 / 10 ^ 40)) by (split; [nra|apply Rmult_le_compat; lra]).
  assert (ih : 0 <= h * iN <= h) by nra. assert (hh : 0 <= h * h <= h) by nra.
  assert (T1 : Rabs (A * (f - iN)) <= u64 * q + A * h).
  { rewrite Rabs_mult, (Rabs_pos_eq A) by lra. apply Rle_trans with (A * (u64 * iN + h)); [apply Rmult_le_compat_l; lra|]. unfold q. lra. }
  assert (T2 : Rabs ((S - A) * iN) <= 33 * u64 * q + 33 * (h * iN)).
  { rewrite Rabs_mult, (Rabs_pos_eq iN) by lra. apply Rle_trans with ((33 * u64 * A + 33 * h) * iN); [apply Rmult_le_compat_r; lra|]. unfold q. lra. }
  assert (T3 : Rabs ((S - A) * (f - iN)) <= 33 * u64 * (u64 * q) + 33 * u64 * (A * h) + 33 * u64 * (h * iN) + 33 * (h * h)).
  { rewrite Rabs_mult. apply Rle_trans with ((33 * u64 * A + 33 * h) * (u64 * iN + h)); [apply Rmult_le_compat; try apply Rabs_pos; assumption|]. unfold q. lra. }
  eapply Rle_trans; [apply Rabs_triang|]. eapply Rle_trans; [apply Rplus_le_compat_l, Rabs_triang|]. unfold u64 in *. lra.
Qed.

Lemma nsum_Z ps : fold_right Z.add 0%Z (map (fun q : float * nat => Z.of_nat (snd q)) ps) = Z.of_nat (nsum ps).
Proof. unfold nsum, list_sum. induction ps as [|q ps IH]; [reflexivity|]. cbn [map fold_right]. rewrite IH. lia. Qed.

Lemma fmean_err ps : Forall weighed ps -> (length ps <= 11)%nat -> (0 < nsum ps)%nat -> (Z.of_nat (nsum ps) <= 2 ^ 53)%Z ->
  fnn (fmean ps) /\ 0 <= wsum ps / INR (nsum ps) /\
  Rabs (fval (fmean ps) - wsum ps / INR (nsum ps)) <= 37 * u64 * (wsum ps / INR (nsum ps)) + 2 / 10 ^ 21.
Proof.
  intros F HL P HN. pose proof eta64_pos as E0. pose proof eta_40 as E40.
  destruct (fold_err ps F n0 0 0 0 ltac:(lia) ltac:(lia)) as (FS & ER & BW).
  { split; [exact ffin_zero|rewrite fval_zero; lra]. }
  { cbn [INR]. lra. }
  { rewrite fval_zero, Rminus_0_r, Rabs_R0. cbn [INR]. lra. }
  unfold fmean. set (S := fold_left _ _ _) in *. rewrite Rplus_0_l in *. rewrite !Nat.add_0_l in *.
  assert (PN : 1 <= INR (nsum ps)) by (apply (le_INR 1), P).
  assert (BN : INR (nsum ps) <= 9007199254740992) by (rewrite INR_IZR_INZ; apply IZR_le; lia).
  rewrite nsum_Z. destruct (ofZ_val (Z.of_nat (nsum ps)) ltac:(lia)) as [FN VN]. rewrite <- INR_IZR_INZ in VN.
  destruct (near_quotient n1 (n_ofZ (Z.of_nat (nsum ps))) 1 (nsum ps)) as (FF & NF & _ & EF);
    [split; [exact ffin_one|exact fval_one]|split; assumption|lia|exact P|].
  set (f := (n1 / n_ofZ (Z.of_nat (nsum ps)))%num) in *. cbn [INR] in EF.
  set (iN := 1 / INR (nsum ps)) in *.
  assert (HI : 0 < iN <= 1).
  { unfold iN. split; [apply Rmult_lt_0_compat; [lra|apply Rinv_0_lt_compat; lra]|].
    apply Rmult_le_reg_r with (INR (nsum ps)); [lra|]. unfold Rdiv. rewrite Rmult_assoc, Rinv_l by lra. lra. }
  replace (wsum ps / INR (nsum ps)) with (wsum ps * iN) by (unfold iN; field; lra).
  set (A := wsum ps) in *. assert (BL : INR (length ps) <= 11) by (rewrite INR_IZR_INZ; apply (IZR_le _ 11); lia). pose proof (pos_INR (length ps)) as PL.
  assert (ER' : Rabs (fval S - A) <= 33 * u64 * A + 33 * eta64).
  { eapply Rle_trans; [exact ER|]. apply Rplus_le_compat; [|nra].
    assert (INR (length ps) * A <= 11 * A) by nra. unfold u64. lra. }
  pose proof (prod_err A iN (fval S) (fval f) eta64 ltac:(lra) HI ltac:(lra) ER' EF) as PE.
  destruct FS as [FS NS]. assert (NSF : 0 <= fval S * fval f) by nra.
  assert (Q : 0 <= A * iN <= A) by nra.
  pose proof (rnd_err_nn _ NSF) as RE. apply Rabs_le_inv in PE, RE.
  assert (T40 : 1 / 10 ^ 40 <= 1 / 10 ^ 22) by lra.
  destruct (fmul_correct S f FS FF) as [EM FM].
  { apply small_range. rewrite Rabs_pos_eq by exact NSF. unfold u64 in *. lra. }
  cbn [n_mul Num_f64]. split; [split; [exact FM|rewrite EM; apply rnd_nonneg, NSF]|]. split; [lra|].
  rewrite EM. unfold u64 in *. apply Rabs_le. split; lra.
Qed.

(** ** averaged rows *)
Definition averaged (e : casc float -> float) : Prop := forall perc ls, e (average perc ls) = fmean (map (fun l => (e (fst l), snd l)) ls).

Lemma averaged_entry (e : casc float -> float) :
  (forall c l, e (add_level c l) = (e c + e (fst l) * n_ofZ (Z.of_nat (snd l)))%num) ->
  (forall c f, e (casc_mul c f) = (e c * f)%num) ->
  (forall c c', p01 c = p01 c' -> p10 c = p10 c' -> pxx c = pxx c' -> wxx c = wxx c' -> e c = e c') ->
  e casc_init = n0 -> averaged e.
Proof.
  intros HA HM HX H0 perc ls. unfold average. cbv zeta.
  match goal with |- e ?r = _ => match r with context [p01 (casc_mul ?x ?f)] =>
    rewrite (HX r (casc_mul x f) eq_refl eq_refl eq_refl eq_refl) end end.
  rewrite HM. unfold fmean. rewrite map_map. cbn [snd]. f_equal.
  assert (G : forall ls c a, e c = a -> e (fold_left add_level ls c) =
    fold_left (fun a q => a + fst q * n_ofZ (Z.of_nat (snd q)))%num (map (fun l => (e (fst l), snd l)) ls) a).
  { clear ls. induction ls as [|l ls IH]; intros c a E; [exact E|]. cbn [fold_left map fst snd]. apply IH. rewrite HA, E. reflexivity. }
  apply G. rewrite <- H0. apply HX; reflexivity.
Qed.
Lemma averaged_01 b t : averaged (fun c => p01 c b t).
Proof. apply averaged_entry; [reflexivity|reflexivity|intros c c' -> _ _ _; reflexivity|reflexivity]. Qed.
Lemma averaged_10 b t : averaged (fun c => p10 c b t).
Proof. apply averaged_entry; [reflexivity|reflexivity|intros c c' _ -> _ _; reflexivity|reflexivity]. Qed.
Lemma averaged_xx b t : averaged (fun c => pxx c b t).
Proof. apply averaged_entry; [reflexivity|reflexivity|intros c c' _ _ -> _; reflexivity|reflexivity]. Qed.
Lemma averaged_w k b t : averaged (fun c => wxx c k b t).
Proof. apply averaged_entry; [reflexivity|reflexivity|intros c c' _ _ _ ->; reflexivity|reflexivity]. Qed.

Lemma distribution_entry eps xs x : eps <= 1 -> nearly_distribution eps xs -> In x xs -> ffin x /\ 0 <= fval x <= 2.
Proof.
  intros HE [F S] I. rewrite Forall_forall in F. destruct (F x I) as [F1 F2]. split; [apply ffin_spec, F1|]. split; [exact F2|].
  apply Rabs_le_inv in S. assert (L : fval x <= Rsum (map fval xs)); [|lra]. clear S F1 F2.
  induction xs as [|y xs IH]; [contradiction|]. cbn [map Rsum fold_right]. fold (Rsum (map fval xs)).
  assert (N : 0 <= Rsum (map fval xs)).
  { clear - F. assert (G : forall z, In z xs -> 0 <= fval z) by (intros z Hz; apply F; right; exact Hz). clear F.
    induction xs as [|z xs IH]; cbn; [lra|]. pose proof (G z (or_introl eq_refl)). assert (0 <= Rsum (map fval xs)) by (apply IH; intros; apply G; right; assumption).
    unfold Rsum in *. lra. }
  destruct I as [->|I]; [lra|]. pose proof (proj2 (F y (or_introl eq_refl))). specialize (IH (fun z Hz => F z (or_intror Hz)) I). lra.
Qed.

Lemma row_sums (es : list (casc float -> float)) ls :
  Forall (fun l => nearly_distribution (2 / 10 ^ 15) (map (fun e => e (fst l)) es)) ls ->
  Rabs (Rsum (map (fun e => wsum (map (fun l => (e (fst l), snd l)) ls)) es) - INR (rows_total ls)) <= 2 / 10 ^ 15 * INR (rows_total ls).
Proof.
  induction 1 as [|[c n] ls [_ H] _ IH].
  - unfold rows_total, wsum. cbn [map list_sum fold_right INR]. assert (Z : Rsum (map (fun _ : casc float -> float => Rsum []) es) = 0).
    { induction es as [|e es IHe]; [reflexivity|]. cbn [map Rsum fold_right]. unfold Rsum in IHe |- *. cbn [fold_right] in *. lra. }
    rewrite Z, Rminus_0_r, Rabs_R0. lra.
  - cbn [fst] in H. assert (E : Rsum (map (fun e => wsum (map (fun l => (e (fst l), snd l)) ((c, n) :: ls))) es) =
      INR n * Rsum (map fval (map (fun e => e c) es)) + Rsum (map (fun e => wsum (map (fun l => (e (fst l), snd l)) ls)) es)).
    { clear. set (F := fun e : casc float -> float => wsum (map (fun l => (e (fst l), snd l)) ((c, n) :: ls))).
      set (G := fun e : casc float -> float => wsum (map (fun l => (e (fst l), snd l)) ls)).
      assert (FG : forall e, F e = INR n * fval (e c) + G e) by (intro e; unfold F, G, wsum, Rsum; cbn [map fold_right fst snd]; ring).
      clearbody F G. induction es as [|e es IHe]; [cbn; ring|]. cbn [map Rsum fold_right]. unfold Rsum in *. rewrite IHe, FG. ring. }
    rewrite E. unfold rows_total, list_sum in *. cbn [map fold_right snd]. rewrite plus_INR.
    pose proof (pos_INR n) as Pn. apply Rabs_le_inv in H, IH.
    set (D := Rsum (map fval (map (fun e => e c) es))) in *. clearbody D.
    assert (INR n * (1 - 2 / 10 ^ 15) <= INR n * D <= INR n * (1 + 2 / 10 ^ 15)) by (split; apply Rmult_le_compat_l; lra).
    apply Rabs_le. split; lra.
Qed.

Lemma averaged_row (es : list (casc float -> float)) perc ls : Forall averaged es -> (length es <= 7)%nat -> (length ls <= 11)%nat ->
  (0 < rows_total ls)%nat -> (Z.of_nat (rows_total ls) <= 2 ^ 53)%Z ->
  Forall (fun l => nearly_distribution (2 / 10 ^ 15) (map (fun e => e (fst l)) es)) ls ->
  nearly_distribution (1 / 10 ^ 14) (map (fun e => e (average perc ls)) es).
Proof.
  intros HE LE LL P HN H. pose proof (row_sums es ls H) as RS.
  assert (NS : forall e : casc float -> float, nsum (map (fun l => (e (fst l), snd l)) ls) = rows_total ls).
  { intro e. unfold nsum, rows_total. rewrite map_map. reflexivity. }
  assert (T : forall e, In e es -> fnn (e (average perc ls)) /\ 0 <= wsum (map (fun l => (e (fst l), snd l)) ls) / INR (rows_total ls) /\
    Rabs (fval (e (average perc ls)) - wsum (map (fun l => (e (fst l), snd l)) ls) / INR (rows_total ls))
      <= 37 * u64 * (wsum (map (fun l => (e (fst l), snd l)) ls) / INR (rows_total ls)) + 2 / 10 ^ 21).
  { intros e He. rewrite Forall_forall in HE. rewrite (HE e He perc ls), <- (NS e). apply fmean_err.
    - apply Forall_forall. intros q Hq. apply in_map_iff in Hq as (l & <- & Hl). rewrite Forall_forall in H.
      split; cbn [fst]; apply (distribution_entry (2 / 10 ^ 15) (map (fun e => e (fst l)) es)); try lra; try (apply H, Hl); apply (in_map (fun e => e (fst l))), He.
    - rewrite map_length. exact LL.
    - rewrite NS. exact P.
    - rewrite NS. exact HN. }
  split.
  - apply Forall_forall. intros x Hx. apply in_map_iff in Hx as (e & <- & He). destruct (T e He) as ((F & N) & _). split; [apply ffin_spec, F|exact N].
  - assert (PN : 0 < INR (rows_total ls)) by (apply lt_0_INR, P).
    set (W := fun e : casc float -> float => wsum (map (fun l => (e (fst l), snd l)) ls)) in *.
    assert (G : Rabs (Rsum (map fval (map (fun e => e (average perc ls)) es)) - Rsum (map W es) / INR (rows_total ls))
      <= 37 * u64 * (Rsum (map W es) / INR (rows_total ls)) + INR (length es) * (2 / 10 ^ 21)).
    { clear - T PN. induction es as [|e es IH].
      - cbn. unfold Rdiv. rewrite !Rmult_0_l, Rminus_0_r, Rabs_R0. lra.
      - cbn [map Rsum fold_right length]. rewrite S_INR. specialize (IH (fun x Hx => T x (or_intror Hx))).
        destruct (T e (or_introl eq_refl)) as (_ & _ & TE). fold (W e) in TE.
        fold (Rsum (map W es)). fold (Rsum (map fval (map (fun e => e (average perc ls)) es))).
        unfold Rdiv in *. rewrite Rmult_plus_distr_r.
        replace (fval (e (average perc ls)) + Rsum (map fval (map (fun e => e (average perc ls)) es)) - (W e * / INR (rows_total ls) + Rsum (map W es) * / INR (rows_total ls)))
          with ((fval (e (average perc ls)) - W e * / INR (rows_total ls)) + (Rsum (map fval (map (fun e => e (average perc ls)) es)) - Rsum (map W es) * / INR (rows_total ls))) by ring.
        eapply Rle_trans; [apply Rabs_triang|]. lra. }
    assert (D : Rabs (Rsum (map W es) / INR (rows_total ls) - 1) <= 2 / 10 ^ 15).
    { apply Rabs_le_inv in RS. replace (Rsum (map W es) / INR (rows_total ls) - 1) with ((Rsum (map W es) - INR (rows_total ls)) * / INR (rows_total ls)) by (field; lra).
      rewrite Rabs_mult, (Rabs_pos_eq (/ _)) by (left; apply Rinv_0_lt_compat, PN).
      apply Rmult_le_reg_r with (INR (rows_total ls)); [exact PN|]. rewrite Rmult_assoc, Rinv_l, Rmult_1_r by lra. apply Rabs_le. lra. }
    assert (LI : INR (length es) <= 7) by (rewrite INR_IZR_INZ; apply (IZR_le _ 7); lia). pose proof (pos_INR (length es)).
    apply Rabs_le_inv in G, D. unfold u64 in G. apply Rabs_le. split; lra.
Qed.

Lemma average_tables perc ls : (length ls <= 11)%nat -> ls <> [] -> (Z.of_nat (rows_total ls) <= 2 ^ 53)%Z ->
  Forall (fun l => nearly_distributions (2 / 10 ^ 15) (fst l) /\ (exists t0, threshold (fst l) = [t0]) /\ (0 < snd l)%nat) ls ->
  nearly_distributions (1 / 10 ^ 14) (average perc ls).
Proof.
  intros LL NE HN H b t Hb Ht.
  assert (P : (0 < rows_total ls)%nat).
  { destruct ls as [|l ls]; [contradiction|]. inversion H as [|? ? (_ & _ & X) _]. unfold rows_total, list_sum. cbn [map fold_right]. lia. }
  split.
  - apply (averaged_row [fun c => p01 c b t; fun c => p10 c b t; fun c => pxx c b t] perc ls); [|cbn; lia|exact LL|exact P|exact HN|].
    + constructor; [apply averaged_01|]. constructor; [apply averaged_10|]. constructor; [apply averaged_xx|constructor].
    + eapply Forall_impl; [|exact H]. cbv beta. intros l (D & _). apply (D b t Hb Ht).
  - apply (averaged_row (row7 (fun k c => wxx c k b t)) perc ls); [|cbn; lia|exact LL|exact P|exact HN|].
    + unfold row7. repeat (constructor; [apply averaged_w|]). constructor.
    + eapply Forall_impl; [|exact H]. cbv beta. intros l (D & _). apply (D b t Hb Ht).
Qed.

(** ** cumulative weights *)
Lemma cum_err xs : Forall (fun x => ffin x /\ 0 <= fval x <= 2) xs -> forall acc A j, (j + length xs <= 6)%nat -> fnn acc -> 0 <= A <= 2 * INR (S j) ->
  Rabs (fval acc - A) <= 2 * u64 * (INR j * A) ->
  fnn (fold_left n_add xs acc) /\
  Rabs (fval (fold_left n_add xs acc) - (A + Rsum (map fval xs))) <= 2 * u64 * (INR (j + length xs) * (A + Rsum (map fval xs))).
Proof.
  induction 1 as [|x xs [FX VX] _ IH]; intros acc A j HJ [FA NA] HA H.
  - cbn [fold_left map length]. change (Rsum []) with 0. rewrite Rplus_0_r, Nat.add_0_r. split; [split; assumption|exact H].
  - cbn [fold_left]. cbn [length] in HJ. apply Rabs_le_inv in H.
    assert (J1 : 0 <= INR j <= 5) by (split; [apply pos_INR|]; rewrite INR_IZR_INZ; apply (IZR_le _ 5); lia).
    rewrite S_INR in HA. set (JA := INR j * A) in *. assert (BJA : 0 <= JA <= 5 * A) by (unfold JA; nra).
    destruct (fadd_correct acc x FA FX) as [ES FS].
    { apply small_range. rewrite Rabs_pos_eq by lra. unfold u64 in *. lra. }
    pose proof (rnd_rel acc x) as RS. rewrite (Rabs_pos_eq (fval acc + fval x)) in RS by lra. apply Rabs_le_inv in RS.
    destruct (IH (acc + x)%float (A + fval x) (S j)) as (I1 & I2).
    + lia.
    + split; [exact FS|]. rewrite ES. apply rnd_nonneg. lra.
    + rewrite !S_INR. lra.
    + rewrite ES, S_INR. replace ((INR j + 1) * (A + fval x)) with (JA + INR j * fval x + A + fval x) by (unfold JA; ring).
      assert (PJY : 0 <= INR j * fval x) by nra. unfold u64 in *. apply Rabs_le. split; lra.
    + replace (A + Rsum (map fval (x :: xs))) with (A + fval x + Rsum (map fval xs)) by (cbn [map Rsum fold_right]; unfold Rsum; ring).
      replace (j + length (x :: xs))%nat with (S j + length xs)%nat by (cbn [length]; lia).
      split; [exact I1|exact I2].
Qed.

Lemma reach eps c draws : eps <= 1 / 10 ^ 14 -> nearly_distributions eps c -> (forall j, ordinary_draw (draws j)) -> weights_reach c draws.
Proof.
  intros HE H D j b t Hb Ht. destruct (H b t Hb Ht) as [_ W]. destruct (D j) as [FD VD]. apply ffin_spec in FD.
  set (w := fun k => wxx c k b t) in *. change (nearly_distribution eps (row7 w)) in W.
  assert (EN : forall k, (k < 7)%nat -> ffin (w k) /\ 0 <= fval (w k) <= 2).
  { intros k Hk. apply (distribution_entry eps (row7 w)); [lra|exact W|]. unfold row7. do 7 (destruct k as [|k]; [cbn; tauto|]). lia. }
  destruct (EN 0%nat ltac:(lia)) as [F0 V0].
  destruct (cum_err (map w (seq 1 6))) with (acc := w 0%nat) (A := fval (w 0%nat)) (j := 0%nat) as [[FR NR] ER].
  - apply Forall_forall. intros x Hx. apply in_map_iff in Hx as (k & <- & Hk). apply in_seq in Hk. apply EN. lia.
  - cbn. lia.
  - split; [exact F0|lra].
  - cbn [INR]. lra.
  - rewrite Rminus_diag_eq, Rabs_R0 by reflexivity. cbn [INR]. lra.
  - unfold cumw. set (r := fold_left n_add (map w (seq 1 6)) (w 0%nat)) in *.
    change (fval (w 0%nat) + Rsum (map fval (map w (seq 1 6)))) with (Rsum (map fval (row7 w))) in ER. rewrite map_length, seq_length in ER.
    change (INR (0 + 6)) with (1 + 1 + 1 + 1 + 1 + 1) in ER.
    destruct W as [_ W]. set (S := Rsum (map fval (row7 w))) in *. clearbody S r. apply Rabs_le_inv in W, ER. cbn [n_leb Num_f64].
    destruct (fleb_correct (draws j) r FD FR) as [|C]; [reflexivity|]. exfalso. apply C. unfold u64 in ER. lra.
Qed.

(** ** the record of a season *)
Lemma recorded_filled k (s : series float) : Forall (fun p => recorded (snd p)) s ->
  Forall (fun p => recorded (snd p)) (Nat.iter k fillna0 s) /\ length (Nat.iter k fillna0 s) = length s.
Proof.
  intro H. induction k as [|k [IH1 IH2]]; [split; [exact H|reflexivity]|]. change (Nat.iter (S k) fillna0 s) with (fillna0 (Nat.iter k fillna0 s)). set (r := Nat.iter k fillna0 s) in *. unfold fillna0. rewrite map_length. split; [|exact IH2].
  apply Forall_map. eapply Forall_impl; [|exact IH1]. cbv beta. intros [t x] R. cbn [fst snd] in *.
  destruct (n_isnan x); [right; left; reflexivity|exact R].
Qed.
Lemma filter_length_le' {A} (f : A -> bool) l : (length (filter f l) <= length l)%nat.
Proof. induction l as [|x l IH]; [cbn; lia|]. cbn. destruct (f x); cbn; lia. Qed.
Lemma subset_length (s : series float) ms : NoDup ms ->
  (length (flat_map (fun m => filter (fun p => Z.eqb (month_of (fst p)) m) s) ms) <= length s)%nat.
Proof.
  intro ND. assert (G : (length (flat_map (fun m => filter (fun p => Z.eqb (month_of (fst p)) m) s) ms)
    <= length (filter (fun p => existsb (Z.eqb (month_of (fst p))) ms) s))%nat).
  { induction ND as [|m ms NI ND IH]; [cbn; lia|]. cbn [flat_map]. rewrite app_length.
    assert (X : (length (filter (fun p => Z.eqb (month_of (fst p)) m) s) + length (filter (fun p => existsb (Z.eqb (month_of (fst p))) ms) s)
      <= length (filter (fun p => existsb (Z.eqb (month_of (fst p))) (m :: ms)) s))%nat); [|lia].
    clear IH ND. induction s as [|p s IHs]; [cbn; lia|]. cbn [filter existsb] in *.
    destruct (Z.eqb_spec (month_of (fst p)) m) as [E|NE]; cbn [orb].
    - destruct (existsb (Z.eqb (month_of (fst p))) ms) eqn:EX; [|cbn [length]; lia].
      exfalso. apply existsb_exists in EX as (x & Hx & Ex). apply Z.eqb_eq in Ex. apply NI. congruence.
    - destruct (existsb (Z.eqb (month_of (fst p))) ms); cbn [length]; lia. }
  pose proof (filter_length_le' (fun p => existsb (Z.eqb (month_of (fst p))) ms) s). lia.
Qed.
Lemma subset_recorded (s : series float) mo sub : match mo with Some ms => NoDup ms | None => True end ->
  Forall (fun p => recorded (snd p)) s -> seasonal_subset s mo = Ok sub ->
  Forall (fun p => recorded (snd p)) sub /\ (length sub <= length s)%nat.
Proof.
  intros ND F H. unfold seasonal_subset in H.
  set (ms := match mo with None => map Z.of_nat (seq 1 12) | Some l => l end) in H.
  assert (NM : NoDup ms).
  { unfold ms. destruct mo as [l|]; [exact ND|]. apply FinFun.Injective_map_NoDup; [intros a b; apply Nat2Z.inj|apply seq_NoDup]. }
  clearbody ms. destruct ms as [|m ms]; [discriminate|]. injection H as <-.
  match goal with |- context [sort_index ?x] => remember x as l eqn:El end.
  assert (El' : l = flat_map (fun m => filter (fun p : Z * float => month_of (fst p) =? m)%Z s) (m :: ms)) by exact El. clear El. split.
  - apply Forall_forall. intros p Hp. apply (Permutation_in _ (sort_perm l)) in Hp. rewrite El' in Hp.
    apply in_flat_map in Hp as (x & _ & Hx). apply filter_In in Hx as [Hx _]. rewrite Forall_forall in F. apply F, Hx.
  - rewrite (Permutation_length (sort_perm l)), El'. apply subset_length, NM.
Qed.

Lemma season_tables pct perc L avg h lo sub st : (forall m, pct [] <> Ok m) -> (1 <= L <= 11)%nat ->
  Forall (fun p => recorded (snd p)) sub -> (Z.of_nat (length sub) < 2 ^ 53)%Z -> season_ok pct perc L avg h lo sub st ->
  match st with
  | SOne o => nearly_distributions (1 / 10 ^ 14) (read_casc h o) /\ length (threshold (read_casc h o)) = L
  | SList os => length os = L /\ Forall (fun o => nearly_distributions (2 / 10 ^ 15) (read_casc h o) /\ threshold (read_casc h o) <> []) os
  end.
Proof.
  intros HP HL F LE (ls & LV & H).
  destruct (levels_tables pct perc HP L 300 sub ls ltac:(lia) ltac:(lia)) as (A & B & C); [|exact LE|exact LV|].
  { eapply Forall_impl; [|exact F]. cbv beta. intros p. apply recorded_amount. }
  destruct st as [o|os].
  - destruct H as (_ & _ & E). rewrite E. split.
    + apply average_tables; [lia|intros ->; cbn in A; lia|lia|exact C].
    + unfold average. cbn [threshold]. rewrite map_length. exact A.
  - destruct H as (_ & _ & E). split; [rewrite <- (map_length (read_casc h)), E, map_length; exact A|].
    apply Forall_forall. intros o Ho. apply (in_map (read_casc h)) in Ho. rewrite E in Ho. apply in_map_iff in Ho as (l & El & Hl).
    rewrite Forall_forall in C. destruct (C l Hl) as (D & (t0 & T) & _). rewrite <- El. split; [exact D|]. rewrite T. discriminate.
Qed.
