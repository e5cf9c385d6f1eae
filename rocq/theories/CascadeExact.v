(** The cascade in exact arithmetic: every box splits into non-negative parts with the same
    sum; hours of a day add up to the amount. *)
From Coq Require Import ZArith List Bool Lia Reals Lra.
From Verif Require Import Py Num Cal Series UtilModel SpecBase TimeProofs CascadeModel PrecipModel SpecCascade
  CascadeProofs.
Import ListNotations.
Open Scope R_scope.

Lemma Rsum_app a b : Rsum (a ++ b) = Rsum a + Rsum b.
Proof. unfold Rsum. induction a as [|x a IH]; cbn; lra. Qed.

Lemma firstn_add {A} a b (l : list A) : firstn (a + b) l = firstn a l ++ firstn b (skipn a l).
Proof.
  revert l; induction a as [|a IH]; intro l; [reflexivity|].
  destruct l as [|x l]; [rewrite skipn_nil, !firstn_nil; reflexivity|].
  cbn. f_equal. apply IH.
Qed.

Lemma chunk_double {A} K i (l : list A) :
  chunk (2 * K) i l = chunk K (2 * i) l ++ chunk K (2 * i + 1) l.
Proof.
  unfold chunk. replace (2 * K)%nat with (K + K)%nat by lia. rewrite firstn_add.
  f_equal; [f_equal; f_equal; lia|].
  rewrite <- skipn_add. f_equal. f_equal. lia.
Qed.

(** ** class centres *)
Definition ccR (k : nat) : R :=
  match k with
  | 0%nat => 1429 / 10000 | 1%nat => 2857 / 10000 | 2%nat => 4286 / 10000
  | 3%nat => 5714 / 10000 | 4%nat => 7143 / 10000 | 5%nat => 8571 / 10000 | _ => 1
  end - 1 / 14.

Lemma class_center_xr k : (k < 7)%nat -> (class_center k : xr) = Fin (ccR k).
Proof.
  intro Hk. unfold class_center, wclassbounds.
  assert (H14 : (n1 / n_ofZ 14 : xr)%num = Fin (1 / 14)).
  { change (xdiv (Fin 1) (Fin 14) = Fin (1 / 14)). rewrite xdiv_Fin; [reflexivity|lra]. }
  rewrite H14.
  do 7 (destruct k as [|k]; [cbn [nth]; try (rewrite lit_xr by lia);
    try rewrite n1_xr; rewrite xsub_Fin; cbn [ccR Z.pow Z.pow_pos Pos.iter]; f_equal;
    reflexivity|]).
  lia.
Qed.

Lemma ccR_range k : 0 < ccR k < 1.
Proof. do 7 (destruct k as [|k]; [unfold ccR; lra|]). unfold ccR; lra. Qed.

(** ** one box, one level, all levels *)
Lemma branch_xr r a b : 0 <= r -> branch (Fin r) a b ->
  exists ra rb, a = Fin ra /\ b = Fin rb /\ 0 <= ra /\ 0 <= rb /\ ra + rb = r.
Proof.
  intros Hr B. inversion B as [H E1 E2|H E1 E2|H E1 E2|k H Hk E1 E2]; subst.
  - cbn in H. destruct (Rltb_spec 0 r); [discriminate|].
    exists 0, 0. repeat split; try reflexivity; lra.
  - exists 0, r. repeat split; try reflexivity; lra.
  - exists r, 0. repeat split; try reflexivity; lra.
  - rewrite class_center_xr by assumption. pose proof (ccR_range k).
    exists (ccR k * r), ((1 - ccR k) * r).
    repeat split; try reflexivity; nra.
Qed.

Lemma splits_xr rs m : Forall (fun r => 0 <= r) rs -> splits (map Fin rs) m ->
  exists ms, m = map Fin ms /\ Forall (fun r => 0 <= r) ms /\
  forall i, (i < length rs)%nat ->
    nth (2 * i) ms 0 + nth (2 * i + 1) ms 0 = nth i rs 0.
Proof.
  revert m. induction rs as [|r rs IH]; intros m F Sp; cbn [map] in Sp.
  - inversion Sp; subst. exists []. repeat split; auto. intros i Hi; cbn in Hi; lia.
  - inversion Sp as [|x a b v out B S' E1 E2]; subst.
    inversion F as [|? ? F1 F2]; subst.
    destruct (branch_xr _ _ _ F1 B) as (ra & rb & -> & -> & Ha & Hb & E).
    destruct (IH _ F2 S') as (ms & -> & Fm & Hm).
    exists (ra :: rb :: ms). split; [reflexivity|]. split; [constructor; [|constructor]; assumption|].
    intros [|i] Hi; cbn [length] in Hi.
    + cbn. exact E.
    + replace (2 * S i)%nat with (S (S (2 * i)))%nat by lia.
      replace (S (S (2 * i)) + 1)%nat with (S (S (2 * i + 1)))%nat by lia.
      cbn [nth]. apply Hm. lia.
Qed.

Lemma refines_xr k rs out : Forall (fun r => 0 <= r) rs -> refines k (map Fin rs) out ->
  exists os, out = map Fin os /\ Forall (fun r => 0 <= r) os /\
  forall i, (i < length rs)%nat -> Rsum (chunk (2 ^ k) i os) = nth i rs 0.
Proof.
  revert rs. induction k as [|k IH]; intros rs F H; cbn [refines] in H.
  - subst. exists rs. repeat split; auto. intros i Hi. cbn [Nat.pow]. unfold chunk.
    rewrite Nat.mul_1_l. revert i Hi. clear F.
    induction rs as [|r rs IH]; intros i Hi; cbn [length] in Hi; [lia|].
    destruct i as [|i]; [cbn; lra|]. cbn [skipn nth]. apply IH; lia.
  - destruct H as (m & Sp & R0).
    assert (Lm := splits_length _ _ Sp). rewrite map_length in Lm.
    destruct (splits_xr _ _ F Sp) as (ms & -> & Fm & Hm).
    destruct (IH _ Fm R0) as (os & -> & Fo & Ho).
    exists os. repeat split; auto. intros i Hi.
    rewrite map_length in Lm.
    rewrite Nat.pow_succ_r', chunk_double, Rsum_app, !Ho by lia. apply Hm; assumption.
Qed.

(** ** quarter hours and hours *)
Definition tri (b : R) : list R := [b / 3; b / 3; b / 3].

Lemma to_quarters_xr bs : to_quarters (map Fin bs) = map Fin (flat_map tri bs).
Proof.
  unfold to_quarters. induction bs as [|b bs IH]; [reflexivity|].
  cbn [map flat_map app tri]. change (n_ofZ 3) with (Fin 3).
  rewrite xdiv_Fin by lra. cbn [map]. do 3 f_equal. exact IH.
Qed.

Lemma flat_map_tri_length bs : length (flat_map tri bs) = (3 * length bs)%nat.
Proof. induction bs as [|b bs IH]; cbn [flat_map tri app length]; lia. Qed.

Lemma skipn_tri k bs : skipn (3 * k) (flat_map tri bs) = flat_map tri (skipn k bs).
Proof.
  revert bs; induction k as [|k IH]; intro bs; [reflexivity|].
  destruct bs as [|b bs]; [rewrite !skipn_nil; reflexivity|].
  replace (3 * S k)%nat with (S (S (S (3 * k))))%nat by lia. cbn [skipn flat_map tri app]. apply IH.
Qed.
Lemma firstn_tri k bs : firstn (3 * k) (flat_map tri bs) = flat_map tri (firstn k bs).
Proof.
  revert bs; induction k as [|k IH]; intro bs; [reflexivity|].
  destruct bs as [|b bs]; [rewrite !firstn_nil; reflexivity|].
  replace (3 * S k)%nat with (S (S (S (3 * k))))%nat by lia. cbn [firstn flat_map tri app].
  do 3 f_equal. apply IH.
Qed.
Lemma Rsum_tri bs : Rsum (flat_map tri bs) = Rsum bs.
Proof.
  induction bs as [|b bs IH]; [reflexivity|].
  cbn [flat_map]. rewrite Rsum_app, IH. unfold tri, Rsum; cbn [fold_right]. lra.
Qed.

Lemma cumsum_from_xr q : forall acc k d, (k < length q)%nat ->
  nth k (cumsum_from (Fin acc) (map Fin q)) d = Fin (acc + Rsum (firstn (S k) q)).
Proof.
  induction q as [|x q IH]; intros acc k d Hk; cbn [length] in Hk; [lia|].
  cbn [map cumsum_from]. change (n_add (Fin acc) (Fin x)) with (Fin (acc + x)).
  destruct k as [|k].
  - cbn [nth firstn]. f_equal. unfold Rsum; cbn [fold_right]. lra.
  - cbn [nth]. rewrite IH by lia. f_equal. unfold Rsum; cbn [firstn fold_right]. lra.
Qed.

Lemma cumsum_xr q k d : (k < length q)%nat ->
  nth k (cumsum (map Fin q)) d = Fin (Rsum (firstn (S k) q)).
Proof.
  destruct q as [|x q]; intro Hk; cbn [length] in Hk; [lia|].
  cbn [map cumsum]. destruct k as [|k].
  - cbn [nth firstn]. f_equal. unfold Rsum; cbn [fold_right]. lra.
  - cbn [nth]. rewrite cumsum_from_xr by lia. reflexivity.
Qed.

Definition blocksum (K n : nat) (l : list R) : list R := map (fun m => Rsum (chunk K m l)) (seq 0 n).

Lemma to_hours_xr n bs : length bs = (32 * n)%nat ->
  to_hours (map Fin bs) = map Fin (blocksum 4 (24 * n) (flat_map tri bs)).
Proof.
  intro Hl. unfold to_hours. cbv zeta.
  rewrite to_quarters_length, map_length, Hl.
  replace (3 * (32 * n) / 4)%nat with (24 * n)%nat
    by (apply Nat.div_unique_exact; lia).
  rewrite to_quarters_xr. set (q := flat_map tri bs).
  assert (Lq : length q = (96 * n)%nat) by (unfold q; rewrite flat_map_tri_length; lia).
  unfold hours_of_cumsum, blocksum. rewrite map_map. apply map_ext_in.
  intros m Hm. apply in_seq in Hm. destruct (Nat.eqb_spec m 0) as [->|Hm0].
  - rewrite cumsum_xr by lia. reflexivity.
  - rewrite !cumsum_xr by lia. rewrite xsub_Fin. f_equal.
    unfold chunk. replace (S (4 * m + 3))%nat with (4 * m + 4)%nat by lia.
    replace (S (4 * m - 1))%nat with (4 * m)%nat by lia.
    rewrite firstn_add, Rsum_app. lra.
Qed.

Lemma sum_of_blocks K l : forall a s,
  Rsum (map (fun m => Rsum (chunk K m l)) (seq s a)) = Rsum (firstn (K * a) (skipn (K * s) l)).
Proof.
  induction a as [|a IH]; intro s.
  - rewrite Nat.mul_0_r. reflexivity.
  - cbn [seq map]. change (Rsum (?x :: ?y)) with (x + Rsum y). rewrite IH.
    replace (K * S a)%nat with (K + K * a)%nat by lia.
    rewrite firstn_add, Rsum_app, <- skipn_add. unfold chunk.
    replace (K * s + K)%nat with (K * S s)%nat by lia. reflexivity.
Qed.

Lemma chunk_map {A B} (f : A -> B) k i l : chunk k i (map f l) = map f (chunk k i l).
Proof. unfold chunk. rewrite skipn_map, firstn_map. reflexivity. Qed.

Lemma skipn_seq k s n : skipn k (seq s n) = seq (s + k) (n - k).
Proof.
  revert s n; induction k as [|k IH]; intros s n.
  - rewrite Nat.add_0_r, Nat.sub_0_r; reflexivity.
  - destruct n as [|n]; [reflexivity|]. cbn [seq skipn]. rewrite IH. f_equal. lia.
Qed.
Lemma firstn_seq k s n : (k <= n)%nat -> firstn k (seq s n) = seq s k.
Proof.
  revert s n; induction k as [|k IH]; intros s n H; [reflexivity|].
  destruct n as [|n]; [lia|]. cbn. f_equal. apply IH; lia.
Qed.

Lemma chunk_blocksum K n a i l : (a * i + a <= n)%nat ->
  chunk a i (blocksum K n l) = map (fun m => Rsum (chunk K m l)) (seq (a * i) a).
Proof.
  intro H. unfold blocksum. rewrite chunk_map. f_equal. unfold chunk.
  rewrite skipn_seq, firstn_seq by lia. reflexivity.
Qed.

Lemma hours_day_sum n bs i : length bs = (32 * n)%nat -> (i < n)%nat ->
  Rsum (chunk 24 i (blocksum 4 (24 * n) (flat_map tri bs))) = Rsum (chunk 32 i bs).
Proof.
  intros Hl Hi. rewrite chunk_blocksum by lia. rewrite sum_of_blocks.
  unfold chunk.
  replace (4 * 24)%nat with (3 * 32)%nat by lia.
  replace (4 * (24 * i))%nat with (3 * (32 * i))%nat by lia.
  rewrite skipn_tri, firstn_tri, Rsum_tri. reflexivity.
Qed.

Lemma Rsum_nonneg l : Forall (fun r => 0 <= r) l -> 0 <= Rsum l.
Proof. induction 1 as [|x l Hx Hl IH]; cbn; [lra|]. unfold Rsum in IH. lra. Qed.

Lemma Forall_chunk {A} (P : A -> Prop) k i l : Forall P l -> Forall P (chunk k i l).
Proof.
  intro H. unfold chunk. rewrite Forall_forall in *. intros x Hx. apply H.
  rewrite <- (firstn_skipn (k * i) l). apply in_or_app. right.
  rewrite <- (firstn_skipn k). apply in_or_app. left. exact Hx.
Qed.

Lemma Forall_tri bs : Forall (fun r => 0 <= r) bs -> Forall (fun r => 0 <= r) (flat_map tri bs).
Proof.
  induction 1 as [|x l Hx Hl IH]; [constructor|]. cbn [flat_map].
  apply Forall_app; split; [|exact IH]. unfold tri. repeat (apply Forall_cons; [lra|]). constructor.
Qed.

(** ** daily amounts: missing or non-negative *)
Definition amountR (a : xr) : R := match a with Fin r => r | _ => 0 end.

Lemma fill0_xr a : amount_ok a -> fill0 a = Fin (amountR a) /\ 0 <= amountR a.
Proof. intros [->|(r & -> & H)]; unfold fill0; cbn; split; auto; lra. Qed.

Lemma fill0_list amounts : Forall amount_ok amounts ->
  map fill0 amounts = map Fin (map amountR amounts) /\ Forall (fun r => 0 <= r) (map amountR amounts).
Proof.
  induction 1 as [|a l Ha Hl [E F]]; [split; constructor|].
  destruct (fill0_xr a Ha) as [E1 F1]. cbn [map]. rewrite E1, E. split; [reflexivity|].
  constructor; assumption.
Qed.

(** all hours of a hourly cascade, day by day *)
Lemma cascade_exact_days e d0 amounts arg lvl draws pos out :
  Forall amount_ok amounts ->
  disagg_prec_cascade e (daily d0 amounts) arg true lvl 0 draws pos = Ok (Some out) ->
  forall i r, nth_error amounts i = Some (Fin r) ->
  exists hs, values_on (d0 + Z.of_nat i) out = map Fin hs /\ length hs = 24%nat /\
             Forall (fun h => 0 <= h) hs /\ Rsum hs = r.
Proof.
  intros HA H i r Hi.
  destruct (cascade_hourly_inv _ _ _ _ _ _ _ _ _ H) as (Hlen & boxes & R0 & ->).
  rewrite Z.eqb_refl. cbv zeta.
  pose proof (hourly_boxes_length _ _ _ R0) as HL.
  pose proof (refines_length _ _ _ R0) as BL.
  rewrite zero_missing_values in R0, BL.
  destruct (fill0_list _ HA) as [EF FF]. rewrite EF in R0, BL. rewrite !map_length in BL.
  destruct (refines_xr _ _ _ FF R0) as (bs & -> & Fb & Hb).
  rewrite map_length in BL. change (2 ^ 5)%nat with 32%nat in *.
  rewrite (restored_day d0 amounts _ i _ HL Hi). cbn [n_isnan Num_xr xisnan].
  rewrite (to_hours_xr (length amounts)) by exact BL.
  assert (Hi' : (i < length amounts)%nat) by (apply nth_error_Some; congruence).
  rewrite chunk_map.
  exists (chunk 24 i (blocksum 4 (24 * length amounts) (flat_map tri bs))).
  split; [reflexivity|]. split; [|split].
  - apply chunk_length with (n := length amounts); [|assumption].
    unfold blocksum. rewrite map_length, seq_length. reflexivity.
  - apply Forall_chunk. unfold blocksum. rewrite Forall_forall. intros x Hx.
    apply in_map_iff in Hx. destruct Hx as (m & <- & _).
    apply Rsum_nonneg, Forall_chunk, Forall_tri, Fb.
  - rewrite hours_day_sum by assumption. rewrite Hb by (rewrite map_length; assumption).
    change 0 with (amountR NaN). rewrite map_nth.
    rewrite (nth_error_nth _ _ NaN Hi). reflexivity.
Qed.
