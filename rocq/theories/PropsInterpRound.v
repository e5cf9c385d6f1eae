(** Property C113: Station.interpolate in binary64. *)
From Coq Require Import String ZArith List Bool Lia Reals Lra Floats.
From Verif Require Import Py Num Cal Series UtilModel UtilModel2 InterpModel SpecBase SpecUtil SpecInterp TimeProofs IndexProofs EqualProofs DaysProofs InterpProofs
  F64 CascadeFloat CascadeRound CourseRound SpecInterpRound InterpRound.
Import ListNotations.
Open Scope Z_scope.

Lemma reading_not_nan x : reading x -> n_isnan x = false.
Proof.
  intro H. destruct (reading_spec x H) as (F & _). apply ffin_spec in F. change (n_isnan x) with (PrimFloat.is_nan x).
  unfold PrimFloat.is_finite in F. apply negb_true_iff, orb_false_iff in F as [K _]. exact K.
Qed.

(** ** what Station.interpolate returns for columns of doubles, hour by hour *)
Theorem C113_station e d0 n (cols : list (Z * list float)) dir limit : (forall m, limit = Some m -> 1 <= m) -> has_series_append e = true ->
  Forall (fun c => 0 <= fst c < 24 /\ length (snd c) = S n) cols -> NoDup (map fst cols) -> 24 * Z.of_nat (S n) <= 2 ^ 50 ->
  exists out, station_interpolate e dir limit (daily_index d0 (S n)) cols = Ok out /\ map fst out = hours_index d0 (S n) /\
    (* observations are kept as they are *)
    (forall k, (k < 24 * S n)%nat -> gone (seen cols k) = false -> nth k (map snd out) nan = seen cols k) /\
    (* before the first and after the last one *)
    (forall k q, (k < q < 24 * S n)%nat -> gone (seen cols q) = false -> (forall j, (j < q)%nat -> gone (seen cols j) = true) ->
       nth k (map snd out) nan = if backward_ok dir limit (Z.of_nat (q - k)) then seen cols q else nan) /\
    (forall k p, (p < k < 24 * S n)%nat -> gone (seen cols p) = false -> (forall j, (p < j < 24 * S n)%nat -> gone (seen cols j) = true) ->
       nth k (map snd out) nan = if forward_ok dir limit (Z.of_nat (k - p)) then seen cols p else nan) /\
    (* between two neighbouring readings *)
    forall p q, (p < q < 24 * S n)%nat -> reading (seen cols p) -> reading (seen cols q) -> (forall j, (p < j < q)%nat -> gone (seen cols j) = true) ->
      let a := seen cols p in let b := seen cols q in let got k := nth k (map snd out) nan in
      let reached k := forward_ok dir limit (Z.of_nat (k - p)) || backward_ok dir limit (Z.of_nat (q - k)) in
      (forall k, (p < k < q)%nat -> reached k = false -> got k = nan) /\
      (forall k, (p < k < q)%nat -> reached k = true ->
         PrimFloat.is_finite (got k) = true /\
         (((a <=? got k) && (got k <=? b)) || ((b <=? got k) && (got k <=? a)))%float = true /\
         ((a =? b)%float = true -> (got k =? a)%float = true) /\
         (Rabs (fval (got k) - (fval a + (fval b - fval a) * (INR k - INR p) / (INR q - INR p))) <= 1 / 10 ^ 15 * Rmax (Rabs (fval a)) (Rabs (fval b)))%R) /\
      (forall k k', (p < k <= k')%nat -> (k' < q)%nat -> reached k = true -> reached k' = true ->
         ((a <=? b) = true -> (got k <=? got k') = true)%float /\ ((b <=? a) = true -> (got k' <=? got k) = true)%float).
Proof.
  intros HL HE F ND HN. destruct (prepared_floats e d0 n cols HE F ND) as (data & E & I & V). set (N := (24 * S n)%nat) in *.
  set (ob := seen cols) in *. exists (combine (index data) (interpolate_linear dir limit (values data))).
  assert (LV : length (values data) = N) by (unfold values; rewrite V, map_length, seq_length; reflexivity).
  assert (LI : length (index data) = N) by (unfold index; rewrite I; unfold hours_index; rewrite grid_length; reflexivity).
  assert (LL : length (interpolate_linear dir limit (values data)) = N) by (unfold interpolate_linear; rewrite map_length, seq_length; exact LV).
  split.
  { unfold station_interpolate. rewrite E. cbn [bind]. destruct limit as [m|]; [|reflexivity]. specialize (HL m eq_refl). destruct (Z.ltb_spec m 1); [lia|reflexivity]. }
  split; [rewrite map_fst_combine by (rewrite LL; exact LI); unfold index; exact I|].
  assert (EV : map snd (combine (index data) (interpolate_linear dir limit (values data))) = interpolate_linear dir limit (map ob (seq 0 N))).
  { rewrite map_snd_combine by (rewrite LL; exact LI). unfold values. rewrite V. reflexivity. }
  clear LV LI LL. set (vs := map snd (combine (index data) (interpolate_linear dir limit (values data)))) in *. clearbody vs.
  split; [intros k Hk G; rewrite EV; exact (at_kept dir limit ob N k Hk G)|].
  split; [intros k q Hq G1 G2; rewrite EV; exact (at_leading dir limit ob N q k (proj1 Hq) (proj2 Hq) G1 G2)|].
  split; [intros k p Hk G1 G2; rewrite EV; exact (at_trailing dir limit ob N p k Hk G1 G2)|].
  intros p q Hq RA RB G a b got reached.
  assert (NA := reading_not_nan _ RA). assert (NB := reading_not_nan _ RB). fold a in RA, NA. fold b in RB, NB.
  assert (GV : forall k, (p < k < q)%nat -> got k = if reached k then interp_value a b (Z.of_nat (k - p)) (Z.of_nat (q - k)) else nan).
  { intros k Hk. unfold got. rewrite EV. exact (at_between dir limit ob N p q k Hk (proj2 Hq) NA NB G). }
  assert (SZ : forall k, (p < k < q)%nat -> 1 <= Z.of_nat (k - p) /\ 1 <= Z.of_nat (q - k) /\ Z.of_nat (k - p) + Z.of_nat (q - k) <= 2 ^ 50) by (intros k Hk; unfold N in *; lia).
  destruct (reading_spec a RA) as (Fa & _). destruct (reading_spec b RB) as (Fb & _).
  assert (FK : forall k, (p < k < q)%nat -> reached k = true -> ffin (got k) /\ (Rmin (fval a) (fval b) <= fval (got k) <= Rmax (fval a) (fval b))%R).
  { intros k Hk R. rewrite (GV k Hk), R. destruct (SZ k Hk) as (Z1 & Z2 & Z3). apply value_between; assumption. }
  split; [intros k Hk R; rewrite (GV k Hk), R; reflexivity|]. split.
  - intros k Hk R. destruct (FK k Hk R) as [FG BG]. split; [apply ffin_spec, FG|]. split; [|split].
    + apply orb_true_iff. destruct (Rle_dec (fval a) (fval b)) as [K|K].
      * left. rewrite Rmin_left, Rmax_right in BG by exact K. apply andb_true_iff. split; apply leb_true; try assumption; apply BG.
      * right. rewrite Rmin_right, Rmax_left in BG by lra. apply andb_true_iff. split; apply leb_true; try assumption; apply BG.
    + intro EQ. apply (eqb_true _ _ Fa Fb) in EQ. apply (eqb_true _ _ FG Fa). rewrite <- EQ in BG. rewrite Rmin_left, Rmax_left in BG by lra. lra.
    + rewrite (GV k Hk), R. destruct (SZ k Hk) as (Z1 & Z2 & Z3). pose proof (value_err a b _ _ RA RB Z1 Z2 Z3) as VE.
      replace (fval a + (fval b - fval a) * (INR k - INR p) / (INR q - INR p))%R
        with (fval a + (fval b - fval a) * (IZR (Z.of_nat (k - p)) / IZR (Z.of_nat (k - p) + Z.of_nat (q - k))))%R; [exact VE|].
      rewrite <- Nat2Z.inj_add, <- !INR_IZR_INZ. replace (k - p + (q - k))%nat with (q - p)%nat by lia. rewrite !minus_INR by lia. unfold Rdiv. ring.
  - intros k k' Hk Hk' R R'. destruct (FK k ltac:(lia) R) as [FG _]. destruct (FK k' ltac:(lia) R') as [FG' _].
    rewrite (GV k), R, (GV k'), R' in * by lia. destruct (SZ k ltac:(lia)) as (Z1 & Z2 & Z3). destruct (SZ k' ltac:(lia)) as (Z1' & Z2' & Z3').
    destruct (value_monotone a b (Z.of_nat (k - p)) (Z.of_nat (q - k)) (Z.of_nat (k' - p)) (Z.of_nat (q - k')) RA RB Z1 Z2 Z3 ltac:(lia) Z2' ltac:(lia)) as [M1 M2].
    split; intro H; apply leb_true; try assumption; [apply M1|apply M2]; apply (leb_true _ _) in H; assumption.
Qed.
Print Assumptions C113_station.

(** ** among subnormal numbers an interpolated value can pass the later neighbour *)
Theorem C113_subnormal_refuted : exists out, station_interpolate legacy Both (Some 24) (daily_index 0 1) [(0, [0%float]); (5, [0x3p-1074%float])] = Ok out /\
  (nth 5 (map snd out) nan <? nth 4 (map snd out) nan)%float = true.
Proof. eexists. split; [vm_compute; reflexivity|]. reflexivity. Qed.
Print Assumptions C113_subnormal_refuted.

(** ** two columns over two days, the afternoon of the second day missing *)
Example C113_met : let cols := [(7, [281.25; 270.5]%float); (14, [290.5%float; nan])] in
  Forall (fun c => 0 <= fst c < 24 /\ length (snd c) = 2%nat) cols /\ NoDup (map fst cols) /\
  reading (seen cols 7) /\ reading (seen cols 14) /\ reading (seen cols 31) /\ gone (seen cols 38) = true /\
  exists out, station_interpolate legacy Both (Some 24) (daily_index 19000 2) cols = Ok out /\
    PrimFloat.is_finite (nth 10 (map snd out) nan) = true /\ nth 0 (map snd out) nan = 281.25%float /\ nth 47 (map snd out) nan = 270.5%float.
Proof.
  cbv zeta. set (cols := [(7, [281.25; 270.5]%float); (14, [290.5%float; nan])]).
  assert (A : Forall (fun c => 0 <= fst c < 24 /\ length (snd c) = 2%nat) cols) by (repeat constructor; cbn; lia).
  assert (B : NoDup (map fst cols)) by (cbn; constructor; [intros [C|[]]; discriminate|]; constructor; [intros []|constructor]).
  split; [exact A|]. split; [exact B|]. do 4 (split; [reflexivity|]).
  destruct (C113_station legacy 19000 1 cols Both (Some 24) ltac:(intros m Q; injection Q as <-; lia) eq_refl A B ltac:(lia)) as (out & E & _ & _ & H1 & H2 & H3).
  exists out. split; [exact E|]. split; [|split].
  - destruct (H3 7%nat 14%nat ltac:(lia) eq_refl eq_refl) as (_ & K & _).
    + intros j Hj. assert (D : exists i, j = (8 + i)%nat /\ (i < 6)%nat) by (exists (j - 8)%nat; lia). destruct D as (i & -> & Hi). do 6 (destruct i as [|i]; [reflexivity|]). lia.
    + apply (K 10%nat ltac:(lia) eq_refl).
  - apply (H1 0%nat 7%nat ltac:(lia) eq_refl). intros j Hj. do 7 (destruct j as [|j]; [reflexivity|]). lia.
  - apply (H2 47%nat 31%nat ltac:(lia) eq_refl). intros j Hj. assert (D : exists i, j = (32 + i)%nat /\ (i < 16)%nat) by (exists (j - 32)%nat; lia). destruct D as (i & -> & Hi).
    do 16 (destruct i as [|i]; [reflexivity|]). lia.
Qed.
