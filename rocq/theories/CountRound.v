(** Counting in binary64: the cascade statistics of a record of doubles. *)
From Coq Require Import ZArith List Bool Lia Reals Lra Floats.
From Flocq Require Import Core IEEE754.BinarySingleNaN IEEE754.PrimFloat.
From Verif Require Import Py Num Cal Series SpecBase CascadeModel SpecCascade AggModel SpecAgg AggProofs AggExact
  F64 CascadeFloat CascadeRound FiveRound ErrCalc SpecSample PropsSample SpecAggRound AggRound SpecCountRound SpecBuild BuildProofs.
Import ListNotations.
Open Scope R_scope.

Lemma rain_f x : rain x = fwet x. Proof. reflexivity. Qed.
Lemma is0_f x : is0 x = fdry x. Proof. reflexivity. Qed.
Lemma nan_f : @n_nan float Num_f64 = nan. Proof. reflexivity. Qed.

Lemma amount_kinds E x : amount_in E x ->
  (PrimFloat.is_nan x = true /\ rain x = false /\ is0 x = false) \/
  (PrimFloat.is_nan x = false /\ is0 x = negb (rain x)).
Proof.
  intro A. destruct (amount_cases E x A) as [(N & R)|[(F & _ & R & Z)|(F & _ & R & Z)]].
  - left. split; [exact N|]. split; [exact R|]. unfold is0. cbn [n_eqb Num_f64].
    rewrite eqb_equiv, (nan_prim x N). reflexivity.
  - right. split; [apply fin_not_nan, F|]. rewrite R, Z. reflexivity.
  - right. split; [apply fin_not_nan, F|]. rewrite R, Z. reflexivity.
Qed.

(** ** box types *)
Lemma ok_inj {A} (x y : A) : Ok x = Ok y -> x = y.
Proof. intro H. injection H as ->. reflexivity. Qed.
Lemma fbox_type E v j t : Forall (amount_in E) v -> (j < length v)%nat -> box_type v j = Ok t ->
  fwet (nth j v nan) = true -> col_of t = fcolumn v j.
Proof.
  intros F Hj H W.
  assert (K : forall k, (k < length v)%nat -> amount_in E (nth k v nan)).
  { intros k Hk. rewrite Forall_forall in F. apply F, nth_In, Hk. }
  unfold box_type in H. cbv zeta in H. rewrite nan_f, (rain_f (nth j v nan)), W in H.
  destruct (Nat.eqb_spec j 0) as [->|J0].
  - unfold getitem in H. destruct (nth_error v 1) as [y|] eqn:E1; [|discriminate H]. cbn [bind] in H. apply ok_inj in H; subst t.
    unfold fcolumn. assert (L1 : (1 < length v)%nat) by (apply nth_error_Some; congruence).
    rewrite (nth_error_nth _ _ 0%float E1). pose proof (K 1%nat L1) as A. rewrite (nth_error_nth _ _ nan E1) in A.
    destruct (amount_kinds E y A) as [(N & R & _)|(N & _)].
    + rewrite N, R. rewrite orb_true_r. reflexivity.
    + rewrite N. rewrite orb_false_r. change (PrimFloat.is_nan 0) with false. cbv iota. change (fwet 0) with false. rewrite (rain_f y). destruct (fwet y); reflexivity.
  - destruct j as [|i]; [lia|]. replace (S i - 1)%nat with i in H by lia. replace (S i + 1)%nat with (S (S i)) in H by lia.
    assert (Ei : nth i v 0%float = nth i v nan) by (apply nth_indep; lia). unfold fcolumn. rewrite Ei.
    destruct (amount_kinds E _ (K i ltac:(lia))) as [(N & R & Z)|(N & Z)].
    + rewrite N. cbn [orb]. rewrite R, Z in H. cbn [andb] in H. destruct (Nat.eqb (S i) (length v - 1)); apply ok_inj in H; subst t; reflexivity.
    + rewrite N. cbn [orb]. destruct (Nat.eqb_spec (S i) (length v - 1)) as [JL|JL].
      * rewrite (nth_overflow v 0%float) by lia. change (PrimFloat.is_nan 0) with false. change (fwet 0) with false. cbv iota. apply ok_inj in H; subst t.
        rewrite rain_f. destruct (fwet (nth i v nan)); reflexivity.
      * assert (Ej : nth (S (S i)) v 0%float = nth (S (S i)) v nan) by (apply nth_indep; lia). rewrite Ej.
        destruct (amount_kinds E _ (K (S (S i)) ltac:(lia))) as [(N' & R' & Z')|(N' & Z')]; rewrite N'.
        -- rewrite R', Z', !andb_false_r in H. apply ok_inj in H; subst t. reflexivity.
        -- rewrite Z, Z' in H. apply ok_inj in H; subst t. rewrite (rain_f (nth i v nan)), (rain_f (nth (S (S i)) v nan)). destruct (fwet (nth i v nan)), (fwet (nth (S (S i)) v nan)); reflexivity.
Qed.

Lemma fbox_types E v : Forall (amount_in E) v -> forall n a ts, (a + n <= length v)%nat -> box_types v (seq a n) = Ok ts ->
  length ts = n /\ forall i, (i < n)%nat -> fwet (nth (a + i) v nan) = true -> col_of (nth i ts 0%nat) = fcolumn v (a + i).
Proof.
  intro F. induction n as [|n IH]; intros a ts Ha H; cbn [seq box_types] in H.
  - injection H as <-. split; [reflexivity|]. lia.
  - apply bind_Ok in H. destruct H as (t & Et & H). apply bind_Ok in H. destruct H as (ts' & Ets & H). injection H as <-.
    destruct (IH (S a) ts' ltac:(lia) Ets) as [L C]. split; [cbn; lia|]. intros [|i] Hi.
    + rewrite Nat.add_0_r. apply (fbox_type E); [exact F|lia|exact Et].
    + replace (a + S i)%nat with (S a + i)%nat by lia. apply C. lia.
Qed.

(** ** one pair *)
Definition triple : Type := float * float * nat.
Definition g_cell (m : float) (b c : nat) (q : triple) : bool :=
  let '(x, y, t) := q in fwet (x + y)%float && Nat.eqb (if (m <? x + y)%float then 1 else 0) b && Nat.eqb (col_of t) c.
Definition g_01 (q : triple) : bool := let '(x, y, _) := q in fdry x && fwet y.
Definition g_10 (q : triple) : bool := let '(x, y, _) := q in fwet x && fdry y.
Definition g_xx (q : triple) : bool := let '(x, y, _) := q in fwet x && fwet y.
Definition g_share (k : nat) (q : triple) : bool :=
  let '(x, y, _) := q in fwet x && fwet y && (fbound k <? x / (x + y))%float && (x / (x + y) <=? fbound (S k))%float.
Definition unit_of (P : bool) : nat := if P then 1%nat else 0%nat.

(** the exact integer n, at most j *)
Definition fcount (x : float) (n j : nat) : Prop := fint x n /\ (n <= j)%nat.
Definition fcount2 (f : nat -> nat -> float) (g : nat -> nat -> nat) (j : nat) : Prop := forall b c, fcount (f b c) (g b c) j.
Record frep (s : counts (T := float)) (t : tables) (j : nat) : Prop := {
  fr_nb : fcount2 (k_nb s) (t_nb t) j; fr_nbxx : fcount2 (k_nbxx s) (t_nbxx t) j; fr_01 : fcount2 (k_01 s) (t_01 t) j;
  fr_10 : fcount2 (k_10 s) (t_10 t) j; fr_xx : fcount2 (k_xx s) (t_xx t) j;
  fr_w : forall k, (k < 7)%nat -> fcount2 (k_w s k) (t_w t k) j }.

Lemma bump_count f g j b c : fcount2 f g j -> (Z.of_nat j < 2 ^ 53)%Z ->
  fcount2 (bump f b c) (fun b' c' => (unit_of (Nat.eqb b' b && Nat.eqb c' c) + g b' c')%nat) (S j).
Proof.
  intros H L b' c'. destruct (H b' c') as [A B]. unfold bump, unit_of. destruct (Nat.eqb b' b && Nat.eqb c' c); cbn [Nat.add].
  - split; [apply fint_S; [exact A|lia]|lia].
  - split; [exact A|lia].
Qed.
Lemma keep_count f g j : fcount2 f g j -> fcount2 f g (S j).
Proof. intros H b c. destruct (H b c). split; [assumption|lia]. Qed.
Lemma count_ext f g g' j : (forall b c, g b c = g' b c) -> fcount2 f g j -> fcount2 f g' j.
Proof. intros E H b c. rewrite <- E. apply H. Qed.

Definition add_g (m : float) (q : triple) (t : tables) : tables :=
  {| t_nb := fun b c => (unit_of (g_cell m b c q) + t_nb t b c)%nat;
     t_nbxx := fun b c => (unit_of (g_cell m b c q && g_xx q) + t_nbxx t b c)%nat;
     t_01 := fun b c => (unit_of (g_cell m b c q && g_01 q) + t_01 t b c)%nat;
     t_10 := fun b c => (unit_of (g_cell m b c q && g_10 q) + t_10 t b c)%nat;
     t_xx := fun b c => (unit_of (g_cell m b c q && g_xx q) + t_xx t b c)%nat;
     t_w := fun k b c => (unit_of (g_cell m b c q && g_share k q) + t_w t k b c)%nat |}.

(** classes *)
Lemma wlower_f k : (k < 7)%nat -> @wlower float Num_f64 k = fbound k.
Proof. intro H. do 7 (destruct k as [|k]; [vm_compute; reflexivity|]). lia. Qed.
Lemma wupper_f k : (k < 7)%nat -> @wupper float Num_f64 k = fbound (S k).
Proof. intro H. do 7 (destruct k as [|k]; [vm_compute; reflexivity|]). lia. Qed.
Lemma fbound_fin k : ffin (fbound k).
Proof. do 8 (destruct k as [|k]; [reflexivity|]). unfold fbound. rewrite nth_overflow by (cbn; lia). reflexivity. Qed.
Lemma fbound_step k : (k < 7)%nat -> fval (fbound k) <= fval (fbound (S k)).
Proof.
  intro H. assert (B : (fbound k <=? fbound (S k))%float = true) by (do 7 (destruct k as [|k]; [vm_compute; reflexivity|]); lia).
  destruct (fleb_correct (fbound k) (fbound (S k)) (fbound_fin k) (fbound_fin (S k))) as [L|C]; [exact L|discriminate].
Qed.
Lemma fbound_le j k : (j <= k <= 7)%nat -> fval (fbound j) <= fval (fbound k).
Proof. intros [H1 H2]. induction H1 as [|k H1 IH]; [lra|]. specialize (IH ltac:(lia)). pose proof (fbound_step k ltac:(lia)). lra. Qed.
Lemma fclass_unique w j k : ffin w -> (j < 7)%nat -> (k < 7)%nat ->
  (fbound j <? w)%float && (w <=? fbound (S j))%float = true -> (fbound k <? w)%float && (w <=? fbound (S k))%float = true -> j = k.
Proof.
  intros F Hj Hk A B. apply andb_true_iff in A, B. destruct A as [A1 A2], B as [B1 B2].
  destruct (fltb_correct (fbound j) w (fbound_fin _) F) as [a1|]; [|discriminate]. destruct (fleb_correct w (fbound (S j)) F (fbound_fin _)) as [a2|]; [|discriminate].
  destruct (fltb_correct (fbound k) w (fbound_fin _) F) as [b1|]; [|discriminate]. destruct (fleb_correct w (fbound (S k)) F (fbound_fin _)) as [b2|]; [|discriminate].
  destruct (Nat.lt_trichotomy j k) as [L|[E|L]]; [|exact E|]; exfalso.
  - pose proof (fbound_le (S j) k ltac:(lia)). lra.
  - pose proof (fbound_le (S k) j ltac:(lia)). lra.
Qed.

Lemma fpair_counted E m x y ty s t j : (0 <= E <= 400)%Z -> amount_in E x -> amount_in E y -> (Z.of_nat j < 2 ^ 53)%Z -> frep s t j ->
  exists s', examine_pair m x y (x + y)%num ty s = inl s' /\ frep s' (add_g m (x, y, ty) t) (S j).
Proof.
  intros HE AX AY LJ R. destruct R as [R1 R2 R3 R4 R5 R6]. unfold examine_pair. change ((x + y)%num) with (x + y)%float.
  rewrite (rain_f (x + y)). destruct (fwet (x + y)) eqn:W.
  2:{ exists s. split; [reflexivity|]. unfold add_g, g_cell. rewrite W. cbn [andb unit_of Nat.add].
      constructor; cbn [t_nb t_nbxx t_01 t_10 t_xx t_w]; try (apply keep_count; assumption). intros k Hk. apply keep_count, R6, Hk. }
  set (b := if (m <? x + y)%float then 1%nat else 0%nat). change (if ((x + y)%float >? m)%num then 1%nat else 0%nat) with b. set (c := col_of ty).
  assert (QC : forall b' c', g_cell m b' c' (x, y, ty) = Nat.eqb b' b && Nat.eqb c' c).
  { intros b' c'. unfold g_cell. rewrite W. cbn [andb]. fold b c. rewrite (Nat.eqb_sym b b'), (Nat.eqb_sym c c'). reflexivity. }
  assert (FS : PrimFloat.is_nan (x + y)%float = false).
  { destruct (PrimFloat.is_nan (x + y)%float) eqn:NN; [|reflexivity]. unfold fwet in W. rewrite (nan_gt _ _ NN) in W. discriminate. }
  cbv zeta.
  destruct (amount_cases _ _ AX) as [(NX & _)|[(FX & VX & RX & ZX)|(FX & VX & RX & ZX)]];
    [rewrite (nan_add_l x y NX) in FS; discriminate| |];
  (destruct (amount_cases _ _ AY) as [(NY & _)|[(FY & VY & RY & ZY)|(FY & VY & RY & ZY)]];
    [rewrite (nan_add_r x y NY) in FS; discriminate| |]); rewrite RX, RY, ZX, ZY; cbn [andb].
  - exfalso. destruct (fadd_correct x y FX FY) as [EA FA]; [rewrite VX, VY, Rplus_0_l; rewrite <- fval_zero, rnd_fval; apply fval_lt_big|].
    unfold fwet in W. destruct (fltb_correct 0%float (x + y)%float eq_refl FA) as [L|]; [|discriminate].
    rewrite EA, VX, VY, Rplus_0_l in L. rewrite <- fval_zero in L. rewrite rnd_fval in L. change (fval 0%float) with (fval n0) in L. lra.
  - eexists. split; [reflexivity|]. change (is0 x) with (fdry x) in ZX. change (is0 y) with (fdry y) in ZY. change (rain x) with (fwet x) in RX. change (rain y) with (fwet y) in RY.
    constructor; unfold add_g; cbn [t_nb t_nbxx t_01 t_10 t_xx t_w k_nb k_nbxx k_01 k_10 k_xx k_w g_01 g_10 g_xx g_share]; rewrite ?RX, ?RY, ?ZX, ?ZY; cbn [andb].
    + eapply count_ext; [|apply bump_count; [exact R1|exact LJ]]. intros b' c'. cbv beta. rewrite QC. reflexivity.
    + eapply count_ext; [|apply keep_count; exact R2]. intros b' c'. cbv beta. rewrite andb_false_r. reflexivity.
    + eapply count_ext; [|apply bump_count; [exact R3|exact LJ]]. intros b' c'. cbv beta. rewrite QC, andb_true_r. reflexivity.
    + eapply count_ext; [|apply keep_count; exact R4]. intros b' c'. cbv beta. rewrite andb_false_r. reflexivity.
    + eapply count_ext; [|apply keep_count; exact R5]. intros b' c'. cbv beta. rewrite andb_false_r. reflexivity.
    + intros k Hk. eapply count_ext; [|apply keep_count; exact (R6 k Hk)]. intros b' c'. cbv beta. rewrite andb_false_r. reflexivity.
  - eexists. split; [reflexivity|]. change (is0 x) with (fdry x) in ZX. change (is0 y) with (fdry y) in ZY. change (rain x) with (fwet x) in RX. change (rain y) with (fwet y) in RY.
    constructor; unfold add_g; cbn [t_nb t_nbxx t_01 t_10 t_xx t_w k_nb k_nbxx k_01 k_10 k_xx k_w g_01 g_10 g_xx g_share]; rewrite ?RX, ?RY, ?ZX, ?ZY; cbn [andb].
    + eapply count_ext; [|apply bump_count; [exact R1|exact LJ]]. intros b' c'. cbv beta. rewrite QC. reflexivity.
    + eapply count_ext; [|apply keep_count; exact R2]. intros b' c'. cbv beta. rewrite andb_false_r. reflexivity.
    + eapply count_ext; [|apply keep_count; exact R3]. intros b' c'. cbv beta. rewrite andb_false_r. reflexivity.
    + eapply count_ext; [|apply bump_count; [exact R4|exact LJ]]. intros b' c'. cbv beta. rewrite QC, andb_true_r. reflexivity.
    + eapply count_ext; [|apply keep_count; exact R5]. intros b' c'. cbv beta. rewrite andb_false_r. reflexivity.
    + intros k Hk. eapply count_ext; [|apply keep_count; exact (R6 k Hk)]. intros b' c'. cbv beta. rewrite andb_false_r. reflexivity.
  - destruct (wet_share E x y HE FX VX FY VY) as (FXY & PXY & FW & VW).
    assert (NG : (nabs (x + y - (x + y)) >? lit 1 3)%num = false).
    { destruct (fsub_same (x + y)%float (x + y)%float) as [FD VD]; [split; [exact FXY|lra]|split; [exact FXY|lra]|reflexivity|].
      unfold nabs. cbn [n_add n_sub n_ltb Num_f64].
      destruct (fltb_correct (x + y - (x + y))%float n0 FD ffin_zero) as [L|_]; [rewrite VD, fval_zero in L; lra|].
      match goal with |- (?a <? _)%float = _ => assert (FL : ffin a) by reflexivity;
        destruct (fltb_correct a (x + y - (x + y))%float FL FD) as [L|_]; [|reflexivity] end.
      exfalso. rewrite VD in L. match type of L with fval ?a < 0 => assert (P : (0 <? a)%float = true) by reflexivity;
        destruct (fltb_correct 0%float a eq_refl FL) as [P'|]; [|discriminate]; change (fval 0%float) with (fval n0) in P'; rewrite fval_zero in P'; lra end. }
    cbn [n_add n_sub n_div Num_f64] in NG |- *. rewrite NG.
    destruct (wclass_found _ FW VW) as (k & EK & HK). rewrite EK.
    assert (SK : (fbound k <? x / (x + y))%float && (x / (x + y) <=? fbound (S k))%float = true).
    { unfold wclass in EK. apply find_some in EK. destruct EK as [_ EK]. rewrite (wlower_f k HK), (wupper_f k HK) in EK. exact EK. }
    eexists. split; [reflexivity|]. change (is0 x) with (fdry x) in ZX. change (is0 y) with (fdry y) in ZY. change (rain x) with (fwet x) in RX. change (rain y) with (fwet y) in RY.
    constructor; unfold add_g; cbn [t_nb t_nbxx t_01 t_10 t_xx t_w k_nb k_nbxx k_01 k_10 k_xx k_w g_01 g_10 g_xx g_share]; rewrite ?RX, ?RY, ?ZX, ?ZY; cbn [andb].
    + eapply count_ext; [|apply bump_count; [exact R1|exact LJ]]. intros b' c'. cbv beta. rewrite QC. reflexivity.
    + eapply count_ext; [|apply bump_count; [exact R2|exact LJ]]. intros b' c'. cbv beta. rewrite QC, andb_true_r. reflexivity.
    + eapply count_ext; [|apply keep_count; exact R3]. intros b' c'. cbv beta. rewrite andb_false_r. reflexivity.
    + eapply count_ext; [|apply keep_count; exact R4]. intros b' c'. cbv beta. rewrite andb_false_r. reflexivity.
    + eapply count_ext; [|apply bump_count; [exact R5|exact LJ]]. intros b' c'. cbv beta. rewrite QC, andb_true_r. reflexivity.
    + intros k' Hk'. destruct (Nat.eqb_spec k' k) as [->|NE].
      * eapply count_ext; [|apply bump_count; [exact (R6 k HK)|exact LJ]]. intros b' c'. cbv beta. rewrite SK, QC, andb_true_r. reflexivity.
      * eapply count_ext; [|apply keep_count; exact (R6 k' Hk')]. intros b' c'. cbv beta.
        destruct ((fbound k' <? x / (x + y))%float && (x / (x + y) <=? fbound (S k'))%float) eqn:SK'.
        -- exfalso. apply NE. exact (fclass_unique _ k' k FW Hk' HK SK' SK).
        -- rewrite andb_false_r. reflexivity.
Qed.

(** ** the whole record *)
Definition sum_g (m : float) (qs : list triple) (t : tables) : tables :=
  {| t_nb := fun b c => (cnt (g_cell m b c) qs + t_nb t b c)%nat;
     t_nbxx := fun b c => (cnt (fun q => g_cell m b c q && g_xx q) qs + t_nbxx t b c)%nat;
     t_01 := fun b c => (cnt (fun q => g_cell m b c q && g_01 q) qs + t_01 t b c)%nat;
     t_10 := fun b c => (cnt (fun q => g_cell m b c q && g_10 q) qs + t_10 t b c)%nat;
     t_xx := fun b c => (cnt (fun q => g_cell m b c q && g_xx q) qs + t_xx t b c)%nat;
     t_w := fun k b c => (cnt (fun q => g_cell m b c q && g_share k q) qs + t_w t k b c)%nat |}.
Definition gx (q : triple) : float := fst (fst q).
Definition gy (q : triple) : float := snd (fst q).

Lemma frep_ext s t t' j : frep s t j ->
  (forall b c, t_nb t b c = t_nb t' b c) -> (forall b c, t_nbxx t b c = t_nbxx t' b c) ->
  (forall b c, t_01 t b c = t_01 t' b c) -> (forall b c, t_10 t b c = t_10 t' b c) ->
  (forall b c, t_xx t b c = t_xx t' b c) -> (forall k b c, t_w t k b c = t_w t' k b c) -> frep s t' j.
Proof.
  intros [R1 R2 R3 R4 R5 R6] H1 H2 H3 H4 H5 H6. constructor; [| | | | |intros k Hk]; (eapply count_ext; [|eauto]); auto.
Qed.

Lemma fexamine E m qs : (0 <= E <= 400)%Z -> Forall (fun q => amount_in E (gx q) /\ amount_in E (gy q)) qs ->
  forall s t rest j, (length rest < 2)%nat -> (Z.of_nat (j + length qs) < 2 ^ 53)%Z -> frep s t j ->
  exists s', examine m (flat_map (fun q => [gx q; gy q]) qs ++ rest) (map (fun q => (gx q + gy q)%float) qs) (map snd qs) s = inl s' /\
    frep s' (sum_g m qs t) (j + length qs).
Proof.
  intro HE. induction 1 as [|[[x y] ty] qs [Hx Hy] F IH]; intros s t rest j HR LJ R.
  - exists s. split; [destruct rest as [|a [|b r]]; reflexivity|]. cbn [length]. rewrite Nat.add_0_r.
    eapply frep_ext; [exact R|..]; reflexivity.
  - cbn [flat_map map gx gy fst snd examine List.app]. cbn [length] in LJ. cbn [gx gy fst snd] in Hx, Hy.
    destruct (fpair_counted E m x y ty s t j HE Hx Hy ltac:(lia) R) as (s1 & E1 & R1). change (x + y)%num with (x + y)%float in E1. rewrite E1.
    destruct (IH s1 _ rest (S j) HR ltac:(lia) R1) as (s2 & E2 & R2). exists s2. split; [exact E2|].
    cbn [length]. replace (j + S (length qs))%nat with (S j + length qs)%nat by lia.
    eapply frep_ext; [exact R2|..]; intros; unfold sum_g, add_g, unit_of;
      cbn [t_nb t_nbxx t_01 t_10 t_xx t_w]; rewrite cnt_cons; lia.
Qed.

Definition tables0 : tables :=
  {| t_nb := fun _ _ => 0%nat; t_nbxx := fun _ _ => 0%nat; t_01 := fun _ _ => 0%nat; t_10 := fun _ _ => 0%nat;
     t_xx := fun _ _ => 0%nat; t_w := fun _ _ _ => 0%nat |}.
Lemma frep_0 : frep counts0 tables0 0.
Proof. constructor; [| | | | |intros k Hk]; intros b c; (split; [exact fint_0|cbn; lia]). Qed.

Lemma fdata (d : list float) (ts : list nat) : length ts = length (pairs d) ->
  (exists rest, d = flat_map (fun q => [gx q; gy q]) (combine (pairs d) ts) ++ rest /\ (length rest < 2)%nat)%list /\
  fsums d = map (fun q => (gx q + gy q)%float) (combine (pairs d) ts) /\ ts = map snd (combine (pairs d) ts).
Proof.
  unfold fsums. revert ts. induction d as [|a|a b d IH] using pairs_ind; intros ts L.
  - destruct ts; [|discriminate]. split; [exists []; split; [reflexivity|cbn; lia]|]. split; reflexivity.
  - destruct ts; [|discriminate]. split; [exists [a]; split; [reflexivity|cbn; lia]|]. split; reflexivity.
  - destruct ts as [|t ts]; [discriminate|]. cbn [pairs length] in L.
    destruct (IH ts ltac:(lia)) as ((rest & E1 & L1) & E2 & E3).
    cbn [pairs combine flat_map map gx gy fst snd List.app]. split; [|split].
    + exists rest. rewrite <- E1. split; [reflexivity|exact L1].
    + rewrite E2. reflexivity.
    + rewrite <- E3. reflexivity.
Qed.

Lemma fcounts m d ts (P : list float -> nat -> bool) (Q : triple -> bool) :
  length ts = length (pairs d) ->
  (forall j, (j < length (pairs d))%nat -> fwet (nth j (fsums d) nan) = true -> col_of (nth j ts 0%nat) = fcolumn (fsums d) j) ->
  (forall j x y t, (j < length (pairs d))%nat -> fpair d j = (x, y) -> Q (x, y, t) = P d j) ->
  forall b c, cnt (fun q => g_cell m b c q && Q q) (combine (pairs d) ts) = fnumber P m d b c.
Proof.
  intros L C HQ b c. rewrite (@combine_seq (float * float) nat (pairs d) ts (nan, nan) 0%nat L), cnt_map.
  unfold fnumber. fold (cnt (fun j => fcell m d b c j && P d j) (seq 0 (length (pairs d)))).
  apply cnt_ext_in. intros j Hj. apply in_seq in Hj. assert (Hj' : (j < length (pairs d))%nat) by lia.
  destruct (nth j (pairs d) (nan, nan)) as [x y] eqn:E. rewrite (HQ j x y _ Hj' E).
  assert (EV : nth j (fsums d) nan = (x + y)%float).
  { unfold fsums. set (F := fun p : float * float => (fst p + snd p)%float).
    rewrite nth_indep with (d' := F (nan, nan)) by (rewrite map_length; lia). rewrite (map_nth F), E. reflexivity. }
  f_equal. unfold fcell, g_cell. rewrite EV. destruct (fwet (x + y)) eqn:W; [|reflexivity].
  rewrite C by (try rewrite EV; assumption). reflexivity.
Qed.

(** ** quotients *)
Lemma rounded_quotient x y a n : fint x a -> fint y n -> (a <= n)%nat -> (0 < n)%nat -> rounded (x / y)%float (ratio a n).
Proof.
  intros [FX VX] [FY VY] H P. assert (PN : 0 < INR n) by (apply lt_0_INR, P). pose proof (pos_INR a) as PA. apply le_INR in H.
  assert (Q0 : 0 <= INR a / INR n) by (apply Rmult_le_pos; [exact PA|left; apply Rinv_0_lt_compat, PN]).
  assert (Q1 : INR a / INR n <= 1) by (apply Rmult_le_reg_r with (INR n); [exact PN|]; unfold Rdiv; rewrite Rmult_assoc, Rinv_l by lra; lra).
  destruct (fdiv_correct x y FX) as [E F]; [lra| |].
  { rewrite VX, VY. apply abs_small with (x := n1); rewrite ?fval_one; assumption. }
  rewrite VX, VY in E. split; [apply ffin_spec, F|exact E].
Qed.

Lemma rounded_lit m k r : (0 <= m <= 2 ^ 53)%Z -> (k = 15 \/ k = 16)%Z -> r = IZR m / IZR (10 ^ k) -> rounded (lit m k) r.
Proof.
  intros Hm Hk ->. destruct (ofZ_val m ltac:(lia)) as [FM VM]. unfold lit.
  assert (D : ffin (n_ofZ (10 ^ k)) /\ fval (n_ofZ (10 ^ k)) = IZR (10 ^ k)).
  { destruct Hk as [->| ->]; [apply ofZ_val; lia|]. split; [vm_compute; reflexivity|]. unfold fval. vm_compute. lra. }
  destruct D as [FD VD].
  assert (PD : 1 <= IZR (10 ^ k)) by (destruct Hk as [->| ->]; lra).
  assert (PM : 0 <= IZR m) by (apply (IZR_le 0); lia).
  assert (Q0 : 0 <= IZR m / IZR (10 ^ k)) by (apply Rmult_le_pos; [exact PM|left; apply Rinv_0_lt_compat; lra]).
  assert (Q1 : IZR m / IZR (10 ^ k) <= IZR m).
  { apply Rmult_le_reg_r with (IZR (10 ^ k)); [lra|]. unfold Rdiv. rewrite Rmult_assoc, Rinv_l by lra. nra. }
  destruct (fdiv_correct (n_ofZ m) (n_ofZ (10 ^ k)) FM) as [E F]; [lra| |].
  { rewrite VM, VD. apply abs_small with (x := n_ofZ m); [exact Q0|]. rewrite VM. exact Q1. }
  rewrite VM, VD in E. split; [apply ffin_spec, F|exact E].
Qed.
Lemma sample_shipped c : p01 c = sample_p01 -> p10 c = sample_p10 -> pxx c = sample_pxx -> wxx c = sample_wxx -> shipped_tables c.
Proof.
  intros E1 E2 E3 E4. constructor; rewrite ?E1, ?E2, ?E3, ?E4.
  - intros b t Hb Ht. each_cell b t; unfold sample_p01, shipped_p01, tab2, cell; cbn [nth]; (apply rounded_lit; [lia|lia|lra]).
  - intros b t Hb Ht. each_cell b t; unfold sample_p10, shipped_p10, tab2, cell; cbn [nth]; (apply rounded_lit; [lia|lia|lra]).
  - intros b t Hb Ht. each_cell b t; unfold sample_pxx, shipped_pxx, tab2, cell; cbn [nth]; (apply rounded_lit; [lia|lia|lra]).
  - intros k b t Hk Hb Ht. do 7 (destruct k as [|k]; [each_cell b t; unfold sample_wxx, shipped_w, tab3, tab2, cell; cbn [nth];
    (apply rounded_lit; [lia|lia|lra])|]). lia.
Qed.

(** ** missing cells *)
Lemma rounded_not_nan x r : rounded x r -> PrimFloat.is_nan x = false.
Proof. intros [F _]. apply fin_not_nan, ffin_spec, F. Qed.
Lemma none_nan2 (f : nat -> nat -> float) : (forall b t, (b < 2)%nat -> (t < 4)%nat -> PrimFloat.is_nan (f b t) = false) -> any_nan2 f = false.
Proof.
  intro H. destruct (any_nan2 f) eqn:E; [|reflexivity]. unfold any_nan2 in E. apply existsb_exists in E. destruct E as ([b t] & HI & E).
  apply In_cells in HI. cbn [fst snd n_isnan Num_f64] in E. rewrite isnan_spec, H in E by tauto. discriminate.
Qed.
Lemma some_nan2 (f : nat -> nat -> float) b t : (b < 2)%nat -> (t < 4)%nat -> PrimFloat.is_nan (f b t) = true -> any_nan2 f = true.
Proof.
  intros Hb Ht H. unfold any_nan2. apply existsb_exists. exists (b, t). split; [apply cells_In; assumption|].
  cbn [fst snd n_isnan Num_f64]. rewrite isnan_spec. exact H.
Qed.
Lemma which_nan3 (f : nat -> nat -> nat -> float) : any_nan3 f = true ->
  exists k b t, (k < 7)%nat /\ (b < 2)%nat /\ (t < 4)%nat /\ PrimFloat.is_nan (f k b t) = true.
Proof.
  unfold any_nan3. intro H. apply existsb_exists in H. destruct H as (k & HI & H). apply in_seq in HI.
  unfold any_nan2 in H. apply existsb_exists in H. destruct H as ([b t] & HC & H). apply In_cells in HC.
  cbn [fst snd n_isnan Num_f64] in H. rewrite isnan_spec in H. exists k, b, t. split; [lia|]. split; [tauto|]. split; [tauto|exact H].
Qed.
Lemma sample_no_nan : any_nan3 (@sample_wxx float Num_f64) = false.
Proof. vm_compute. reflexivity. Qed.
Lemma sevenths_pass (w : nat -> nat -> nat -> float) b t : (b < 2)%nat -> (t < 4)%nat ->
  (forall k, (k < 7)%nat -> w k b t = (n1 / n_ofZ 7)%num) -> weight_check_fails w = false.
Proof.
  intros Hb Ht H. unfold weight_check_fails. cbv zeta.
  match goal with |- context [existsb ?f cells] => assert (X : existsb f cells = true) end.
  { apply existsb_exists. exists (b, t). split; [apply cells_In; assumption|]. cbn [fst snd].
    assert (FE : forall l acc, (forall k, In k l -> (k < 7)%nat) -> fold_left (fun acc k => (acc + w k b t)%num) l acc = fold_left (fun acc k => (acc + n1 / n_ofZ 7)%num) l acc).
    { induction l as [|k l IH]; intros acc HL; [reflexivity|]. cbn [fold_left]. rewrite (H k) by (apply HL; left; reflexivity). apply IH. intros; apply HL; right; assumption. }
    rewrite FE by (intros k HK; apply in_seq in HK; lia). vm_compute. reflexivity. }
  rewrite X. vm_compute. reflexivity.
Qed.

(** ** one level *)
Lemma level_counts E pct perc (s : series float) c v : (0 <= E <= 400)%Z -> Forall (fun p => amount_in E (snd p)) s ->
  (Z.of_nat (length s) < 2 ^ 53)%Z -> aggregate_precipitation pct perc s = Ok (c, v) ->
  let d := map snd s in values v = fsums d /\ step_statistics pct perc d c.
Proof.
  intros HE F L H d. unfold aggregate_precipitation in H. cbv zeta in H.
  assert (EV : values (pair_sums s) = fsums d) by (unfold values; rewrite pair_sums_snd; reflexivity).
  rewrite EV in H. apply bind_Ok in H. destruct H as (m & Em & H). apply bind_Ok in H. destruct H as (vb & Eb & H).
  assert (FD : Forall (amount_in E) d) by (unfold d; apply Forall_map; exact F).
  assert (FP : Forall (fun p => amount_in E (fst p) /\ amount_in E (snd p)) (pairs d)).
  { clear - FD. induction d as [|a|a b l IH] using pairs_ind; [constructor|constructor|]. cbn [pairs]. inversion FD as [|? ? A F1]; subst. inversion F1 as [|? ? B F2]; subst.
    constructor; [split; assumption|apply IH; assumption]. }
  assert (FS : Forall (amount_in (E + 1)) (fsums d)).
  { unfold fsums. apply Forall_map. eapply Forall_impl; [|exact FP]. cbv beta. intros [x y] [A B]. apply amount_add; assumption. }
  assert (LS : length (fsums d) = length (pairs d)) by (unfold fsums; apply map_length).
  destruct (fbox_types (E + 1) (fsums d) FS (length (fsums d)) 0 vb ltac:(lia) Eb) as [LB CB]. rewrite LS in LB, CB. cbn [Nat.add] in CB.
  destruct (fdata d vb LB) as ((rest & ED & LR) & ES & ET). set (qs := combine (pairs d) vb) in *.
  assert (LQ : length qs = length (pairs d)) by (unfold qs; rewrite combine_length, LB; lia).
  assert (L2 : (length (pairs d) <= length s)%nat).
  { rewrite pairs_length. unfold d. rewrite map_length. apply Nat.div_le_upper_bound; lia. }
  assert (FQ : Forall (fun q => amount_in E (gx q) /\ amount_in E (gy q)) qs).
  { apply Forall_forall. intros [[x y] ty] HI. apply in_combine_l in HI. rewrite Forall_forall in FP. exact (FP _ HI). }
  assert (L3 : (Z.of_nat (0 + length qs) < 2 ^ 53)%Z).
  { rewrite Nat.add_0_l, LQ. eapply Z.le_lt_trans; [apply inj_le, L2|exact L]. }
  destruct (fexamine E m qs HE FQ counts0 tables0 rest 0%nat LR L3 frep_0) as (k & EX & R).
  rewrite <- ED, <- ES, <- ET in EX. change (values s) with d in H. rewrite EX in H.
  assert (N0 : forall b t, t_nb (sum_g m qs tables0) b t = fnumber fany m d b t).
  { intros b t. cbn [sum_g tables0 t_nb]. rewrite Nat.add_0_r. erewrite <- (fcounts m d vb fany (fun _ => true) LB CB); [|reflexivity].
    apply cnt_ext_in. intros q _. rewrite andb_true_r. reflexivity. }
  assert (N1 : forall b t, t_01 (sum_g m qs tables0) b t = fnumber f01 m d b t).
  { intros b t. cbn [sum_g tables0 t_01]. rewrite Nat.add_0_r. apply (fcounts m d vb f01 g_01 LB CB). intros j x y ty _ EP. unfold f01. rewrite EP. reflexivity. }
  assert (N2 : forall b t, t_10 (sum_g m qs tables0) b t = fnumber f10 m d b t).
  { intros b t. cbn [sum_g tables0 t_10]. rewrite Nat.add_0_r. apply (fcounts m d vb f10 g_10 LB CB). intros j x y ty _ EP. unfold f10. rewrite EP. reflexivity. }
  assert (N3 : forall b t, t_xx (sum_g m qs tables0) b t = fnumber fxx m d b t).
  { intros b t. cbn [sum_g tables0 t_xx]. rewrite Nat.add_0_r. apply (fcounts m d vb fxx g_xx LB CB). intros j x y ty _ EP. unfold fxx. rewrite EP. reflexivity. }
  assert (N4 : forall b t, t_nbxx (sum_g m qs tables0) b t = fnumber fxx m d b t).
  { intros b t. rewrite <- N3. reflexivity. }
  assert (N5 : forall i b t, t_w (sum_g m qs tables0) i b t = fnumber (fshare i) m d b t).
  { intros i b t. cbn [sum_g tables0 t_w]. rewrite Nat.add_0_r. apply (fcounts m d vb (fshare i) (g_share i) LB CB). intros j x y ty _ EP. unfold fshare, fxx. rewrite EP. reflexivity. }
  assert (SUB : forall P b t, (fnumber P m d b t <= fnumber fany m d b t)%nat).
  { intros P b t. unfold fnumber, fany. induction (seq 0 (length (pairs d))) as [|j l IH]; [cbn; lia|]. cbn [filter].
    destruct (fcell m d b t j); cbn [andb]; [destruct (P d j)|]; cbn [length]; lia. }
  assert (SUBX : forall i b t, (fnumber (fshare i) m d b t <= fnumber fxx m d b t)%nat).
  { intros i b t. unfold fnumber. induction (seq 0 (length (pairs d))) as [|j l IH]; [cbn; lia|]. cbn [filter].
    destruct (fcell m d b t j); cbn [andb]; [|exact IH].
    assert (SX : fshare i d j = true -> fxx d j = true) by (unfold fshare; destruct (fpair d j); rewrite !andb_true_iff; tauto).
    destruct (fshare i d j); [rewrite SX by reflexivity; cbn [length]; lia|]. destruct (fxx d j); cbn [length]; lia. }
  destruct R as [R0 R4 R1 R2 R3 R5].
  set (c0 := {| p01 := fun b t => (k_01 k b t / k_nb k b t)%num; p10 := _; pxx := _; wxx := _; threshold := [m]; percentile := perc |}) in H.
  assert (Q : forall b t, fint (k_nb k b t) (fnumber fany m d b t) /\ fint (k_nbxx k b t) (fnumber fxx m d b t) /\ fint (k_01 k b t) (fnumber f01 m d b t) /\
              fint (k_10 k b t) (fnumber f10 m d b t) /\ fint (k_xx k b t) (fnumber fxx m d b t)).
  { intros b t. rewrite <- N0, <- N1, <- N2, <- N3. split; [apply R0|]. split; [rewrite N3, <- N4; apply R4|]. split; [apply R1|]. split; [apply R2|apply R3]. }
  assert (QW : forall i b t, (i < 7)%nat -> fint (k_w k i b t) (fnumber (fshare i) m d b t)) by (intros i b t Hi; rewrite <- N5; apply R5, Hi).
  assert (H' : values v = fsums d /\ c = (let c1 := if any_nan2 (p01 c0) || any_nan2 (p10 c0) || any_nan2 (pxx c0) then fill_with_sample_data c0 else c0 in
    if any_nan3 (wxx c1) then
      let w := patched (wxx c1) in
      let c' := {| p01 := p01 c1; p10 := p10 c1; pxx := pxx c1; wxx := w; threshold := threshold c1; percentile := percentile c1 |} in
      if weight_check_fails w then fill_with_sample_data c' else c'
    else c1)).
  { apply ok_inj in H. apply pair_equal_spec in H. destruct H as [<- <-]. split; [exact EV|reflexivity]. }
  clear H. destruct H' as [HV HC]. split; [exact HV|]. exists m. split; [exact Em|]. cbv zeta in HC.
  assert (SEEN : (forall b t, (b < 2)%nat -> (t < 4)%nat -> fnumber fany m d b t <> 0%nat) ->
    counted_tables m d c /\ threshold c = [m] /\ percentile c = perc).
  { intro AS.
    assert (B1 : forall b t, (b < 2)%nat -> (t < 4)%nat -> rounded (p01 c0 b t) (ratio (fnumber f01 m d b t) (fnumber fany m d b t))).
    { intros b t Hb Ht. destruct (Q b t) as (Q0 & _ & Q1 & _). apply rounded_quotient; [exact Q1|exact Q0|apply SUB|]. specialize (AS b t Hb Ht). lia. }
    assert (B2 : forall b t, (b < 2)%nat -> (t < 4)%nat -> rounded (p10 c0 b t) (ratio (fnumber f10 m d b t) (fnumber fany m d b t))).
    { intros b t Hb Ht. destruct (Q b t) as (Q0 & _ & _ & Q1 & _). apply rounded_quotient; [exact Q1|exact Q0|apply SUB|]. specialize (AS b t Hb Ht). lia. }
    assert (B3 : forall b t, (b < 2)%nat -> (t < 4)%nat -> rounded (pxx c0 b t) (ratio (fnumber fxx m d b t) (fnumber fany m d b t))).
    { intros b t Hb Ht. destruct (Q b t) as (Q0 & _ & _ & _ & Q1). apply rounded_quotient; [exact Q1|exact Q0|apply SUB|]. specialize (AS b t Hb Ht). lia. }
    rewrite (none_nan2 (p01 c0)), (none_nan2 (p10 c0)), (none_nan2 (pxx c0)) in HC by (intros b t Hb Ht; eapply rounded_not_nan; eauto). cbn [orb] in HC.
    assert (WN : forall i b t, (i < 7)%nat -> fnumber fxx m d b t = 0%nat -> PrimFloat.is_nan (wxx c0 i b t) = true).
    { intros i b t Hi Z0. destruct (Q b t) as (_ & Q1 & _). rewrite Z0 in Q1. apply (nan_quotient _ _ _ (QW i b t Hi) Q1). pose proof (SUBX i b t). lia. }
    assert (WR : forall i b t, (i < 7)%nat -> fnumber fxx m d b t <> 0%nat -> rounded (wxx c0 i b t) (ratio (fnumber (fshare i) m d b t) (fnumber fxx m d b t))).
    { intros i b t Hi NZ. destruct (Q b t) as (_ & Q1 & _). apply rounded_quotient; [apply QW, Hi|exact Q1|apply SUBX|lia]. }
    assert (S7 : rounded (n1 / n_ofZ 7)%num (1 / 7)).
    { destruct (ofZ_val 7 ltac:(lia)) as [F7 V7]. replace (1 / 7) with (ratio 1 7) by (unfold ratio; cbn [INR]; lra).
      apply rounded_quotient; [split; [exact ffin_one|exact fval_one]|split; [exact F7|rewrite V7; cbn [INR]; lra]|lia|lia]. }
    assert (WP : forall i b t, (i < 7)%nat -> rounded (patched (wxx c0) i b t)
               (if Nat.eqb (fnumber fxx m d b t) 0 then 1 / 7 else ratio (fnumber (fshare i) m d b t) (fnumber fxx m d b t))).
    { intros i b t Hi. unfold patched. cbn [n_isnan Num_f64]. rewrite isnan_spec. destruct (Nat.eqb_spec (fnumber fxx m d b t) 0) as [Z0|NZ].
      - rewrite (WN i b t Hi Z0). exact S7.
      - rewrite (rounded_not_nan _ _ (WR i b t Hi NZ)). exact (WR i b t Hi NZ). }
    destruct (any_nan3 (wxx c0)) eqn:AN.
    - destruct (which_nan3 _ AN) as (i & b & t & Hi & Hb & Ht & NI).
      assert (Z0 : fnumber fxx m d b t = 0%nat).
      { destruct (Nat.eq_dec (fnumber fxx m d b t) 0) as [E0|NZ]; [exact E0|]. rewrite (rounded_not_nan _ _ (WR i b t Hi NZ)) in NI. discriminate. }
      rewrite (sevenths_pass (patched (wxx c0)) b t Hb Ht) in HC.
      2:{ intros i' Hi'. unfold patched. cbn [n_isnan Num_f64]. rewrite isnan_spec, (WN i' b t Hi' Z0). reflexivity. }
      subst c. split; [|split; reflexivity]. constructor; [exact B1|exact B2|exact B3|]. intros i' b' t' Hi' _ _. exact (WP i' b' t' Hi').
    - subst c. split; [|split; reflexivity]. constructor; [exact B1|exact B2|exact B3|]. intros i' b' t' Hi' Hb' Ht'.
      pose proof (WP i' b' t' Hi') as W. unfold patched in W. cbn [n_isnan Num_f64] in W. rewrite isnan_spec, (no_nan3 _ AN i' b' t' Hi' Hb' Ht') in W. exact W. }
  assert (UNSEEN : (exists b t, (b < 2)%nat /\ (t < 4)%nat /\ fnumber fany m d b t = 0%nat) ->
    shipped_tables c /\ threshold c = [m] /\ percentile c = perc).
  { intros (b & t & Hb & Ht & Z0). destruct (Q b t) as (Q0 & _ & Q1 & _). rewrite Z0 in Q0.
    rewrite (some_nan2 (p01 c0) b t Hb Ht) in HC.
    2:{ apply (nan_quotient _ _ _ Q1 Q0). pose proof (SUB f01 b t). lia. }
    cbn [orb] in HC. change (wxx (fill_with_sample_data c0)) with (@sample_wxx float Num_f64) in HC. rewrite sample_no_nan in HC. subst c.
    split; [|split; reflexivity]. apply sample_shipped; reflexivity. }
  assert (DEC : (forall b t, (b < 2)%nat -> (t < 4)%nat -> fnumber fany m d b t <> 0%nat) \/ (exists b t, (b < 2)%nat /\ (t < 4)%nat /\ fnumber fany m d b t = 0%nat)).
  { destruct (existsb (fun p => Nat.eqb (fnumber fany m d (fst p) (snd p)) 0) cells) eqn:EE.
    - right. apply existsb_exists in EE. destruct EE as ([b t] & HI & EZ). apply In_cells in HI. apply Nat.eqb_eq in EZ. exists b, t. cbn [fst snd] in EZ. tauto.
    - left. intros b t Hb Ht EZ. assert (X : existsb (fun p => Nat.eqb (fnumber fany m d (fst p) (snd p)) 0) cells = true); [|congruence].
      apply existsb_exists. exists (b, t). split; [apply cells_In; assumption|]. cbn [fst snd]. apply Nat.eqb_eq, EZ. }
  assert (T : threshold c = [m] /\ percentile c = perc) by (destruct DEC as [D|D]; [apply SEEN in D|apply UNSEEN in D]; tauto).
  split; [tauto|]. split; [tauto|]. split; [intro A; apply SEEN, A|intro A; apply UNSEEN, A].
Qed.

Lemma fsums_amounts E (s : series float) (v : series float) : (0 <= E <= 400)%Z -> Forall (fun p => amount_in E (snd p)) s -> values v = fsums (map snd s) ->
  Forall (fun p => amount_in (E + 1) (snd p)) v /\ (length v <= length s)%nat.
Proof.
  intros HE F H. assert (FD : Forall (amount_in E) (map snd s)) by (apply Forall_map; exact F). split.
  - apply (proj1 (Forall_map snd (amount_in (E + 1)) v)). change (map snd v) with (values v). rewrite H. unfold fsums. apply Forall_map.
    clear - HE FD. induction (map snd s) as [|a|a b l IH] using pairs_ind; [constructor|constructor|].
    cbn [pairs]. inversion FD as [|? ? A F1]; subst. inversion F1 as [|? ? B F2]; subst.
    constructor; [cbn [fst snd]; apply amount_add; assumption|apply IH; assumption].
  - assert (X : length (values v) = length v) by (unfold values; apply map_length). rewrite <- X, H. unfold fsums. rewrite map_length, pairs_length, map_length.
    apply Nat.div_le_upper_bound; lia.
Qed.
Lemma step_data_S i d : step_data i (fsums d) = step_data (S i) d.
Proof. unfold step_data. symmetry. apply iter_r. Qed.
Lemma levels_counts pct perc L : forall E (s : series float) ls, (0 <= E)%Z -> (E + Z.of_nat L <= 400)%Z ->
  Forall (fun p => amount_in E (snd p)) s -> (Z.of_nat (length s) < 2 ^ 53)%Z -> levels_of pct perc L s ls ->
  length ls = L /\ forall i c n, nth_error ls i = Some (c, n) -> step_statistics pct perc (step_data i (map snd s)) c /\ n = length (step_data (S i) (map snd s)).
Proof.
  induction L as [|L IH]; intros E s ls H0 HL F LE LV; inversion LV as [|L' s1 c s' ls' A LV']; subst.
  - split; [reflexivity|]. intros [|i] c n H; discriminate H.
  - destruct (level_counts E pct perc s c s' ltac:(lia) F LE A) as [V ST].
    destruct (fsums_amounts E s s' ltac:(lia) F V) as [F' LL].
    destruct (IH (E + 1)%Z s' ls' ltac:(lia) ltac:(lia) F' ltac:(lia) LV') as [A1 A2]. split; [cbn; lia|].
    change (map snd s') with (values s') in A2. rewrite V in A2. intros [|i] c' n H; cbn [nth_error] in H.
    + injection H as <- <-. split; [exact ST|]. unfold step_data. cbn [Nat.iter nat_rect].
      change (length s' = length (fsums (map snd s))). rewrite <- V. unfold values. symmetry. apply map_length.
    + rewrite <- (step_data_S i), <- (step_data_S (S i)). apply A2, H.
Qed.

(** ** averages *)
Lemma rows_total_INR ls : fold_right Rplus 0 (map INR (map snd ls)) = INR (rows_total ls).
Proof. unfold rows_total, list_sum. induction ls as [|l ls IH]; [reflexivity|]. cbn [map fold_right]. rewrite plus_INR, IH. reflexivity. Qed.
Lemma wmean_wsum (e : casc float -> float) ls :
  wmean (map (fun x => fval (e x)) (map fst ls)) (map snd ls) = wsum (map (fun l => (e (fst l), snd l)) ls) / INR (rows_total ls).
Proof.
  unfold wmean. rewrite rows_total_INR. f_equal. unfold wsum, Rsum. induction ls as [|l ls IH]; [reflexivity|].
  cbn [map combine fold_right fst snd]. rewrite IH. reflexivity.
Qed.
Lemma wsum_le ps : Forall weighed ps -> wsum ps <= 2 * INR (nsum ps).
Proof.
  unfold wsum, nsum, Rsum, list_sum. induction 1 as [|[x n] ps [_ H] _ IH]; [cbn; lra|]. cbn [map fold_right fst snd] in *.
  rewrite plus_INR. pose proof (pos_INR n). nra.
Qed.
Lemma averaged_near (e : casc float -> float) perc ls : averaged e -> (length ls <= 11)%nat -> (0 < rows_total ls)%nat ->
  (Z.of_nat (rows_total ls) <= 2 ^ 53)%Z -> Forall (fun l => ffin (e (fst l)) /\ 0 <= fval (e (fst l)) <= 2) ls ->
  near_mean (1 / 10 ^ 14) e (average perc ls) (map fst ls) (map snd ls).
Proof.
  intros A LL P HN F. unfold near_mean. rewrite wmean_wsum, (A perc ls). set (ps := map (fun l => (e (fst l), snd l)) ls).
  assert (NS : nsum ps = rows_total ls) by (unfold nsum, rows_total, ps; rewrite map_map; reflexivity).
  assert (FP : Forall weighed ps) by (apply Forall_map; exact F).
  rewrite <- NS. destruct (fmean_err ps FP) as ((FF & _) & N & B); [unfold ps; rewrite map_length; exact LL|lia|lia|].
  split; [apply ffin_spec, FF|]. eapply Rle_trans; [exact B|].
  assert (PN : 0 < INR (nsum ps)) by (apply lt_0_INR; lia).
  assert (U : wsum ps / INR (nsum ps) <= 2).
  { apply Rmult_le_reg_r with (INR (nsum ps)); [exact PN|]. unfold Rdiv. rewrite Rmult_assoc, Rinv_l, Rmult_1_r by lra. apply wsum_le, FP. }
  unfold u64. lra.
Qed.
Lemma averaged_all perc ls : (length ls <= 11)%nat -> ls <> [] -> (Z.of_nat (rows_total ls) <= 2 ^ 53)%Z ->
  Forall (fun l => nearly_distributions (2 / 10 ^ 15) (fst l) /\ (exists t0, threshold (fst l) = [t0]) /\ (0 < snd l)%nat) ls ->
  averaged_tables (1 / 10 ^ 14) (average perc ls) (map fst ls) (map snd ls).
Proof.
  intros LL NE HN H.
  assert (P : (0 < rows_total ls)%nat).
  { destruct ls as [|l ls]; [contradiction|]. inversion H as [|? ? (_ & _ & X) _]. unfold rows_total, list_sum. cbn [map fold_right]. lia. }
  assert (K : forall (e : casc float -> float) (row : casc float -> list float), averaged e ->
    (forall c, nearly_distributions (2 / 10 ^ 15) c -> nearly_distribution (2 / 10 ^ 15) (row c)) -> (forall c, In (e c) (row c)) ->
    near_mean (1 / 10 ^ 14) e (average perc ls) (map fst ls) (map snd ls)).
  { intros e row A D I. apply averaged_near; try assumption. eapply Forall_impl; [|exact H]. cbv beta. intros l (DL & _).
    apply (distribution_entry (2 / 10 ^ 15) (row (fst l))); [lra|apply D, DL|apply I]. }
  constructor.
  - intros b t Hb Ht. apply (K _ (fun c => [p01 c b t; p10 c b t; pxx c b t])); [apply averaged_01|intros c D; apply (D b t Hb Ht)|cbn; tauto].
  - intros b t Hb Ht. apply (K _ (fun c => [p01 c b t; p10 c b t; pxx c b t])); [apply averaged_10|intros c D; apply (D b t Hb Ht)|cbn; tauto].
  - intros b t Hb Ht. apply (K _ (fun c => [p01 c b t; p10 c b t; pxx c b t])); [apply averaged_xx|intros c D; apply (D b t Hb Ht)|cbn; tauto].
  - intros k b t Hk Hb Ht. apply (K _ (fun c => [wxx c 0 b t; wxx c 1 b t; wxx c 2 b t; wxx c 3 b t; wxx c 4 b t; wxx c 5 b t; wxx c 6 b t]%nat));
      [apply averaged_w|intros c D; apply (D b t Hb Ht)|]. intro c. do 7 (destruct k as [|k]; [cbn; tauto|]). lia.
  - unfold average. cbn [threshold]. rewrite !map_map. apply map_ext_in. intros l Hl. rewrite Forall_forall in H.
    destruct (H l Hl) as (_ & (t0 & ->) & _). reflexivity.
Qed.
