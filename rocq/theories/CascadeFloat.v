(** The cascade in binary64 arithmetic: finite and non-negative, dry days exactly dry. *)
From Coq Require Import ZArith List Bool Lia Reals Lra Floats.
From Flocq Require Import Core.
From Verif Require Import Py Num Cal Series UtilModel SpecBase TimeProofs CascadeModel PrecipModel SpecCascade
  CascadeProofs F64.
Import ListNotations.
Open Scope R_scope.
Notation float := PrimFloat.float (only parsing).

(** finite, non-negative, at most 2^900 *)
Definition fok (x : float) : Prop := fnn x /\ fval x <= cap.
Definition fz (x : float) : Prop := ffin x /\ fval x = 0.

Lemma fok_n0 : fok n0.
Proof.
  unfold fok, fnn. rewrite fval_zero. repeat split; try exact ffin_zero; try lra.
  apply bpow_ge_0.
Qed.
Lemma fz_n0 : fz n0.
Proof. split; [exact ffin_zero|exact fval_zero]. Qed.

Lemma fval_one : fval n1 = 1.
Proof. unfold fval. vm_compute. lra. Qed.
Lemma ffin_one : ffin n1.
Proof. reflexivity. Qed.

Definition unit_b (w : float) : bool :=
  PrimFloat.is_finite w && PrimFloat.leb n0 w && PrimFloat.leb w n1.
Lemma unit_b_spec w : unit_b w = true -> ffin w /\ 0 <= fval w <= 1.
Proof.
  unfold unit_b. rewrite !andb_true_iff. intros [[F A] B]. apply ffin_spec in F.
  destruct (fleb_correct n0 w ffin_zero F) as [A'|]; [|discriminate].
  destruct (fleb_correct w n1 F ffin_one) as [B'|]; [|discriminate].
  rewrite fval_zero in A'. rewrite fval_one in B'. auto.
Qed.

Lemma centers_unit : forallb (fun k => unit_b (class_center k) && unit_b (n1 - class_center k)%num)
                       (seq 0 7) = true.
Proof. vm_compute. reflexivity. Qed.

Lemma center_unit k : (k < 7)%nat ->
  (ffin (class_center k) /\ 0 <= fval (class_center k) <= 1) /\
  (ffin (n1 - class_center k)%num /\ 0 <= fval (n1 - class_center k)%num <= 1).
Proof.
  intro Hk. pose proof centers_unit as H. rewrite forallb_forall in H.
  specialize (H k). rewrite in_seq, andb_true_iff in H. destruct H as [A B]; [lia|].
  split; apply unit_b_spec; assumption.
Qed.

Lemma branch_f64 x a b : fok x -> branch x a b -> fok a /\ fok b /\ (fval x = 0 -> fz a /\ fz b).
Proof.
  intros (Hx & Hc) B. pose proof fok_n0 as Z0. pose proof fz_n0 as Z1.
  assert (P : (n0 <? x)%num = true -> fval x <> 0).
  { intro H. cbn [n_ltb Num_f64] in H.
    destruct (fltb_correct n0 x ffin_zero (proj1 Hx)) as [L|]; [|discriminate].
    rewrite fval_zero in L. lra. }
  inversion B as [H E1 E2|H E1 E2|H E1 E2|k H Hk E1 E2]; subst.
  - auto.
  - specialize (P H). repeat split; try apply Z0; try apply Hx; try assumption; intros; contradiction.
  - specialize (P H). repeat split; try apply Z0; try apply Hx; try assumption; intros; contradiction.
  - specialize (P H). destruct (center_unit k Hk) as ((F1 & U1) & (F2 & U2)).
    destruct (fmul_unit _ x F1 U1 Hx) as [A1 A2].
    destruct (fmul_unit _ x F2 U2 Hx) as [B1 B2].
    split; [|split].
    + split; [exact A1|]. eapply Rle_trans; [exact A2|exact Hc].
    + split; [exact B1|]. eapply Rle_trans; [exact B2|exact Hc].
    + intros; contradiction.
Qed.

Lemma nth_SS {A} i (a b : A) l d : nth (2 * S i) (a :: b :: l) d = nth (2 * i) l d.
Proof. replace (2 * S i)%nat with (S (S (2 * i)))%nat by lia. reflexivity. Qed.
Lemma nth_SS1 {A} i (a b : A) l d : nth (2 * S i + 1) (a :: b :: l) d = nth (2 * i + 1) l d.
Proof. replace (2 * S i + 1)%nat with (S (S (2 * i + 1)))%nat by lia. reflexivity. Qed.

Lemma splits_f64 v m : Forall fok v -> splits v m ->
  Forall fok m /\
  forall i d, (i < length v)%nat -> fval (nth i v d) = 0 ->
    fz (nth (2 * i) m d) /\ fz (nth (2 * i + 1) m d).
Proof.
  intros F Sp. induction Sp as [|x a b v m B Sp IH].
  - split; [constructor|]. intros i d Hi; cbn in Hi; lia.
  - inversion F as [|? ? F1 F2]; subst. destruct (IH F2) as [I1 I2].
    destruct (branch_f64 _ _ _ F1 B) as (A1 & A2 & A3).
    split; [constructor; [|constructor]; assumption|].
    intros [|i] d Hi Hz.
    + cbn. apply A3. exact Hz.
    + rewrite nth_SS, nth_SS1. apply I2; [cbn in Hi; lia|exact Hz].
Qed.

Lemma refines_f64 k : forall v out, Forall fok v -> refines k v out ->
  Forall fok out /\
  forall i d, (i < length v)%nat -> fval (nth i v d) = 0 ->
    forall j, (2 ^ k * i <= j < 2 ^ k * i + 2 ^ k)%nat -> fval (nth j out d) = 0.
Proof.
  induction k as [|k IH]; intros v out F R0; cbn [refines] in R0.
  - subst. split; [assumption|]. intros i d Hi Hz j Hj. cbn [Nat.pow] in Hj.
    replace j with i by lia. exact Hz.
  - destruct R0 as (m & Sp & R0). destruct (splits_f64 _ _ F Sp) as [Fm Hm].
    destruct (IH _ _ Fm R0) as [Fo Ho]. split; [assumption|].
    intros i d Hi Hz j Hj. destruct (Hm i d Hi Hz) as [[_ Z0] [_ Z1]].
    pose proof (splits_length _ _ Sp) as L.
    rewrite Nat.pow_succ_r' in Hj.
    destruct (Nat.lt_ge_cases j (2 ^ k * (2 * i) + 2 ^ k)) as [C|C].
    + apply Ho with (i := (2 * i)%nat); [lia|assumption|lia].
    + apply Ho with (i := (2 * i + 1)%nat); [lia|assumption|lia].
Qed.

(** ** quarter hours *)
Lemma three_ge1 : 1 <= fval (n_ofZ 3).
Proof.
  assert (F3 : ffin (@n_ofZ float _ 3)) by (apply ffin_spec; vm_compute; reflexivity).
  destruct (fleb_correct n1 (@n_ofZ float _ 3) ffin_one F3) as [H|H].
  - rewrite fval_one in H. exact H.
  - exfalso; apply H. rewrite fval_one. unfold fval. vm_compute. lra.
Qed.

Lemma quarter_ok x : fok x ->
  fok (x / n_ofZ 3)%num /\ (fval x = 0 -> fval (x / n_ofZ 3)%num = 0).
Proof.
  intros (Hx & Hc). destruct (fdiv_ge1 x _ Hx three_ge1) as [(A0 & A1) B].
  cbn [n_div Num_f64]. split.
  - split; [split; assumption|]. eapply Rle_trans; [exact B|exact Hc].
  - intro Hz. rewrite Hz in B. lra.
Qed.

Lemma to_quarters_ok v : Forall fok v -> Forall fok (to_quarters v).
Proof.
  induction 1 as [|x v Hx Hv IH]; [constructor|].
  destruct (quarter_ok x Hx) as [Q _].
  unfold to_quarters in *. cbn [flat_map app]. repeat (apply Forall_cons; [exact Q|]). exact IH.
Qed.

Lemma nth_to_quarters (v : list float) : forall j d, (j < 3 * length v)%nat ->
  nth j (to_quarters v) d = (nth (j / 3) v d / n_ofZ 3)%num.
Proof.
  induction v as [|x v IH]; intros j d Hj; [cbn in Hj; lia|].
  unfold to_quarters in *. cbn [flat_map app].
  destruct j as [|[|[|j]]]; try reflexivity.
  cbn [nth]. cbn [length] in Hj. rewrite IH by lia.
  replace (S (S (S j))) with (j + 1 * 3)%nat by lia. rewrite Nat.div_add by lia.
  rewrite Nat.add_1_r. reflexivity.
Qed.

(** ** running sums *)
Lemma cumsum_from_ok q : Forall fok q -> forall acc k0,
  (0 <= k0)%Z -> (k0 + Z.of_nat (length q) <= 2 ^ 53)%Z ->
  fnn acc -> fval acc <= IZR k0 * cap ->
  forall k d, (k < length q)%nat ->
    let c := nth k (cumsum_from acc q) d in
    let p := match k with O => acc | S k' => nth k' (cumsum_from acc q) d end in
    fnn c /\ fval p <= fval c /\ (fval (nth k q d) = 0 -> fval c = fval p).
Proof.
  induction 1 as [|x q Hx Hq IH]; intros acc k0 H0 HL Ha Hc k d Hk; [cbn in Hk; lia|].
  cbn [length] in HL, Hk. cbn [cumsum_from]. cbv zeta.
  destruct Hx as [Hx Hxc].
  destruct (fadd_capped acc x k0 ltac:(lia) Ha Hc Hx Hxc) as (A1 & A2 & A3 & A4).
  destruct k as [|k].
  - cbn [nth]. cbn [n_add Num_f64]. auto.
  - assert (G := IH (acc + x)%float (k0 + 1)%Z ltac:(lia) ltac:(lia) A1 A2 k d ltac:(lia)).
    cbv zeta in G. cbn [nth]. destruct k as [|k]; exact G.
Qed.

Lemma cumsum_ok q : Forall fok q -> (Z.of_nat (length q) <= 2 ^ 53)%Z ->
  forall k d, (k < length q)%nat ->
    fnn (nth k (cumsum q) d) /\
    forall k', k = S k' ->
      fval (nth k' (cumsum q) d) <= fval (nth k (cumsum q) d) /\
      (fval (nth k q d) = 0 -> fval (nth k (cumsum q) d) = fval (nth k' (cumsum q) d)).
Proof.
  intros F L k d Hk. destruct F as [|x q Hx Hq]; [cbn in Hk; lia|].
  cbn [cumsum length] in *. destruct k as [|k].
  - cbn [nth]. split; [apply Hx|]. intros k' E; discriminate.
  - assert (G := cumsum_from_ok q Hq x 1%Z ltac:(lia) ltac:(lia) (proj1 Hx)
                  ltac:(rewrite Rmult_1_l; apply Hx) k d ltac:(lia)).
    cbv zeta in G. cbn [nth]. destruct G as (G1 & G2 & G3). split; [exact G1|].
    intros k' E. injection E as <-. destruct k as [|k]; split; assumption.
Qed.

Lemma cumsum_first q d : nth 0 (cumsum q) d = nth 0 q d :> float.
Proof. destruct q; reflexivity. Qed.

Lemma cumsum_four q j d : Forall fok q -> (Z.of_nat (length q) <= 2 ^ 53)%Z ->
  (j + 4 < length q)%nat ->
  fval (nth j (cumsum q) d) <= fval (nth (j + 4) (cumsum q) d) /\
  ((forall i, (j < i <= j + 4)%nat -> fval (nth i q d) = 0) ->
   fval (nth (j + 4) (cumsum q) d) = fval (nth j (cumsum q) d)).
Proof.
  intros F L Hj.
  pose proof (fun k H => proj2 (cumsum_ok q F L k d H)) as G.
  destruct (G (j + 4)%nat ltac:(lia) (j + 3)%nat ltac:(lia)) as [A1 B1].
  destruct (G (j + 3)%nat ltac:(lia) (j + 2)%nat ltac:(lia)) as [A2 B2].
  destruct (G (j + 2)%nat ltac:(lia) (j + 1)%nat ltac:(lia)) as [A3 B3].
  destruct (G (j + 1)%nat ltac:(lia) j ltac:(lia)) as [A4 B4].
  split; [lra|]. intro Z0.
  rewrite B1, B2, B3, B4 by (apply Z0; lia). reflexivity.
Qed.

(** ** hours *)
Lemma nth_to_hours n v m : length v = (32 * n)%nat -> (m < 24 * n)%nat ->
  nth m (to_hours v) n_nan =
  let cs := cumsum (to_quarters v) in
  if Nat.eqb m 0 then nth 3 cs n_nan
  else (nth (4 * m + 3) cs n_nan - nth (4 * m - 1) cs n_nan)%num :> float.
Proof.
  intros L Hm. unfold to_hours, hours_of_cumsum. cbv zeta.
  rewrite to_quarters_length, L.
  replace (3 * (32 * n) / 4)%nat with (24 * n)%nat by (apply Nat.div_unique_exact; lia).
  set (f := fun m => if Nat.eqb m 0 then _ else _).
  rewrite nth_indep with (d' := f 0%nat) by (rewrite map_length, seq_length; lia).
  rewrite map_nth, seq_nth by lia. reflexivity.
Qed.

Lemma hours_f64 n v : Forall fok v -> length v = (32 * n)%nat ->
  (96 * Z.of_nat n <= 2 ^ 53)%Z ->
  forall m, (m < 24 * n)%nat ->
    fnn (nth m (to_hours v) n_nan) /\
    ((forall j, (4 * m <= j < 4 * m + 4)%nat -> fval (nth (j / 3) v n_nan) = 0) ->
     fz (nth m (to_hours v) n_nan)).
Proof.
  intros F L Hn m Hm. rewrite (nth_to_hours n) by assumption. cbv zeta.
  set (q := to_quarters v).
  assert (Fq : Forall fok q) by (apply to_quarters_ok; assumption).
  assert (Lq : length q = (96 * n)%nat) by (unfold q; rewrite to_quarters_length; lia).
  assert (Hq : (Z.of_nat (length q) <= 2 ^ 53)%Z) by lia.
  assert (Zq : forall j, (j < 96 * n)%nat -> fval (nth (j / 3) v n_nan) = 0 -> fval (nth j q n_nan) = 0).
  { intros j Hj Hz. unfold q. rewrite nth_to_quarters by lia.
    apply quarter_ok; [|exact Hz]. rewrite Forall_forall in F. apply F. apply nth_In.
    apply Nat.div_lt_upper_bound; lia. }
  pose proof (fun k H => proj1 (cumsum_ok q Fq Hq k n_nan H)) as N0.
  destruct (Nat.eqb_spec m 0) as [->|Hm0].
  - split; [apply N0; lia|]. intro Z0.
    split; [apply N0; lia|].
    pose proof (fun k H => proj2 (cumsum_ok q Fq Hq k n_nan H)) as G.
    destruct (G 3%nat ltac:(lia) 2%nat eq_refl) as [_ B1].
    destruct (G 2%nat ltac:(lia) 1%nat eq_refl) as [_ B2].
    destruct (G 1%nat ltac:(lia) 0%nat eq_refl) as [_ B3].
    rewrite B1, B2, B3, cumsum_first by (apply Zq; [lia|apply Z0; lia]).
    apply Zq; [lia|apply Z0; lia].
  - destruct (cumsum_four q (4 * m - 1) n_nan Fq Hq ltac:(lia)) as [A B].
    replace (4 * m - 1 + 4)%nat with (4 * m + 3)%nat in * by lia.
    pose proof (N0 (4 * m + 3)%nat ltac:(lia)) as Nh.
    pose proof (N0 (4 * m - 1)%nat ltac:(lia)) as Nl.
    split.
    + apply (fsub_ordered _ _ Nh Nl A).
    + intro Z0. apply (fsub_same _ _ Nh Nl). symmetry. apply B.
      intros i Hi. apply Zq; [lia|]. apply Z0. lia.
Qed.

(** ** daily amounts *)
Lemma fok_of_bounds a : ((0 <=? a) && (a <=? 0x1p900))%float = true -> fok a.
Proof.
  rewrite andb_true_iff. intros [A B].
  assert (F : ffin a) by (apply between_finite with (lo := 0%float) (hi := 0x1p900%float); auto).
  destruct (fleb_correct 0%float a (proj2 (ffin_spec 0%float) eq_refl) F) as [A'|]; [|discriminate].
  destruct (fleb_correct a 0x1p900%float F (proj2 (ffin_spec 0x1p900%float) eq_refl)) as [B'|]; [|discriminate].
  assert (E0 : fval 0%float = 0) by reflexivity. rewrite E0 in A'.
  assert (E1 : fval 0x1p900%float = cap).
  { unfold fval, cap. rewrite <- BinarySingleNaN.SF2R_B2SF, PrimFloat.B2SF_Prim2B.
    change (Prim2SF 0x1p900%float) with (SpecFloat.S754_finite false 4503599627370496 848).
    unfold BinarySingleNaN.SF2R, F2R. cbn [Fnum Fexp SpecFloat.cond_Zopp].
    change (IZR (Z.pos 4503599627370496)) with (bpow radix2 52). rewrite <- bpow_plus. reflexivity. }
  rewrite E1 in B'. repeat split; assumption.
Qed.

Lemma fill0_f64 a : famount_ok a -> fok (fill0 a).
Proof.
  unfold fill0. cbn [n_isnan Num_f64]. intros [H|H].
  - unfold f64_isnan. unfold PrimFloat.is_nan in H. rewrite H. apply fok_n0.
  - assert (F := fok_of_bounds _ H).
    assert (E : f64_isnan a = false).
    { unfold f64_isnan. destruct (feqb_correct a a (proj1 (proj1 F)) (proj1 (proj1 F))) as [|C];
        [reflexivity|exfalso; apply C; reflexivity]. }
    rewrite E. exact F.
Qed.

Lemma isnan_spec a : f64_isnan a = PrimFloat.is_nan a.
Proof. reflexivity. Qed.

Lemma nth_chunk {A} K i j (l : list A) d : (j < K)%nat -> nth j (chunk K i l) d = nth (K * i + j) l d.
Proof.
  intro Hj. unfold chunk. 
  assert (G : forall k (l : list A) j, (j < k)%nat -> nth j (firstn k l) d = nth j l d).
  { clear. induction k as [|k IH]; intros l j H; [lia|]. destruct l as [|x l]; [destruct j; reflexivity|].
    destruct j; [reflexivity|]. cbn. apply IH; lia. }
  rewrite G by assumption. revert l. generalize (K * i)%nat as s. clear.
  induction s as [|s IH]; intro l; [reflexivity|]. destruct l as [|x l].
  - rewrite skipn_nil. destruct j; reflexivity.
  - cbn. apply IH.
Qed.

Lemma cascade_f64_days e d0 amounts arg lvl draws pos out :
  (Z.of_nat (length amounts) < 2 ^ 46)%Z ->
  Forall famount_ok amounts ->
  disagg_prec_cascade e (daily d0 amounts) arg true lvl 0 draws pos = Ok (Some out) ->
  forall i a, nth_error amounts i = Some a ->
  if PrimFloat.is_nan a
  then values_on (d0 + Z.of_nat i) out = repeat PrimFloat.nan 24
  else length (values_on (d0 + Z.of_nat i) out) = 24%nat /\
       forall h, In h (values_on (d0 + Z.of_nat i) out) ->
         PrimFloat.is_finite h = true /\ (0 <=? h)%float = true /\
         ((a =? 0)%float = true -> (h =? 0)%float = true).
Proof.
  intros Hn HA H i a Hi.
  destruct (cascade_hourly_inv _ _ _ _ _ _ _ _ _ H) as (Hlen & boxes & R0 & ->).
  rewrite Z.eqb_refl. cbv zeta.
  pose proof (hourly_boxes_length _ _ _ R0) as HL.
  pose proof (refines_length _ _ _ R0) as BL.
  rewrite zero_missing_values in R0, BL. rewrite map_length in BL.
  rewrite (restored_day d0 amounts _ i _ HL Hi). change (n_isnan a) with (PrimFloat.is_nan a).
  destruct (PrimFloat.is_nan a) eqn:En; [reflexivity|].
  assert (Hi' : (i < length amounts)%nat) by (apply nth_error_Some; congruence).
  assert (LC := chunk_length _ _ _ _ HL Hi'). split; [exact LC|].
  intros h Hh.
  destruct (In_nth _ _ n_nan Hh) as (j & Hj & <-). rewrite LC in Hj.
  rewrite nth_chunk by assumption.
  assert (FA : Forall fok (map fill0 amounts)).
  { rewrite Forall_map. eapply Forall_impl; [|exact HA]. exact fill0_f64. }
  destruct (refines_f64 _ _ _ FA R0) as [Fb Hb].
  destruct (hours_f64 (length amounts) boxes Fb BL ltac:(lia) (24 * i + j) ltac:(lia))
    as [[N1 N2] Nz].
  split; [apply ffin_spec, N1|]. split.
  - destruct (fleb_correct 0%float _ (proj2 (ffin_spec 0%float) eq_refl) N1) as [|C]; [reflexivity|].
    exfalso; apply C. exact N2.
  - intro Ez.
    assert (Fa : fill0 a = a) by (unfold fill0; change (n_isnan a) with (PrimFloat.is_nan a); rewrite En; reflexivity).
    assert (Hnth : nth i (map fill0 amounts) n_nan = a).
    { apply nth_error_nth. rewrite nth_error_map, Hi. cbn. congruence. }
    assert (Fok : fok a).
    { rewrite <- Fa. apply fill0_f64. rewrite Forall_forall in HA. apply HA.
      eapply nth_error_In; exact Hi. }
    assert (Za : fval a = 0).
    { destruct (feqb_correct a 0%float (proj1 (proj1 Fok)) (proj2 (ffin_spec 0%float) eq_refl)) as [E|]; [|discriminate].
      rewrite E. reflexivity. }
    assert (Zb : forall k, (32 * i <= k < 32 * i + 32)%nat -> fval (nth k boxes n_nan) = 0).
    { intros k Hk. apply (Hb i n_nan); [rewrite map_length; exact Hi'|rewrite Hnth; exact Za|exact Hk]. }
    destruct Nz as [Z1 Z2].
    { intros k Hk. apply Zb. split.
      - apply Nat.div_le_lower_bound; lia.
      - apply Nat.div_lt_upper_bound; lia. }
    destruct (feqb_correct (nth (24 * i + j) (to_hours boxes) n_nan) 0%float Z1 (proj2 (ffin_spec 0%float) eq_refl)) as [|C];
      [reflexivity|].
    exfalso; apply C. rewrite Z2. reflexivity.
Qed.
