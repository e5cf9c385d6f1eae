(** Property C66 at the level of Station.interpolate: the hourly series it returns, from the daily columns. *)
From Coq Require Import String ZArith List Bool Lia Reals Lra.
From Verif Require Import Py Num Cal Series UtilModel UtilModel2 InterpModel SpecBase SpecUtil SpecInterp TimeProofs IndexProofs EqualProofs DaysProofs InterpProofs.
Import ListNotations.
Open Scope Z_scope.

(** what was observed at the k-th hour of the record: the column taken at this hour of the day, on this day *)
Fixpoint column_at (h : Z) (cols : list (Z * list xr)) : option (list xr) :=
  match cols with [] => None | (h', v) :: r => if h' =? h then Some v else column_at h r end.
Definition observed (cols : list (Z * list xr)) (k : nat) : xr :=
  match column_at (Z.of_nat (k mod 24)) cols with Some v => nth (k / 24) v NaN | None => NaN end.

Lemma column_lookup h cols : column_at h cols = lookup h cols.
Proof. induction cols as [|[h' v] r IH]; [reflexivity|]. cbn [column_at lookup]. destruct (h' =? h); [reflexivity|exact IH]. Qed.
Lemma map_seq_split {A} (f : nat -> A) p m N : (p + m <= N)%nat -> map f (seq 0 N) = (map f (seq 0 p) ++ map f (seq p m) ++ map f (seq (p + m) (N - p - m)))%list.
Proof. intro H. replace N with (p + (m + (N - p - m)))%nat at 1 by lia. rewrite !seq_app, !map_app. reflexivity. Qed.
Lemma map_nan (f : nat -> xr) p m : (forall j, (p <= j < p + m)%nat -> f j = NaN) -> map f (seq p m) = repeat NaN m.
Proof.
  revert p. induction m as [|m IH]; intros p H; [reflexivity|]. cbn [seq map repeat]. rewrite H by lia. f_equal. apply IH. intros j Hj. apply H. lia.
Qed.
Lemma chunk_nth {A} (l : list A) i h d : (h < 24)%nat -> nth h (chunk 24 i l) d = nth (24 * i + h) l d.
Proof.
  intro H. unfold chunk. assert (F : forall (u : list A) k j, (j < k)%nat -> nth j (firstn k u) d = nth j u d).
  { induction u as [|x u IH]; intros [|k] [|j] L; try lia; try reflexivity. cbn [firstn nth]. apply IH. lia. }
  rewrite F by exact H. clear F. revert l. generalize (24 * i)%nat. intro k. induction k as [|k IH]; intro l; [reflexivity|]. destruct l as [|x l]; [destruct h; reflexivity|]. cbn [skipn Nat.add nth]. apply IH.
Qed.
Lemma prepared_values e d0 n cols : has_series_append e = true ->
  Forall (fun c : Z * list xr => 0 <= fst c < 24 /\ length (snd c) = S n) cols -> NoDup (map fst cols) ->
  exists data, prepare_interpolation_data e (daily_index d0 (S n)) cols = Ok data /\ map fst data = hours_index d0 (S n) /\
    map snd data = map (observed cols) (seq 0 (24 * S n)).
Proof.
  intros HE F ND. destruct (prepare_ok e d0 n cols HE F ND) as (data & E & I & V). exists data. split; [exact E|]. split; [exact I|].
  assert (L : length (map snd data) = (24 * S n)%nat).
  { rewrite map_length, <- (map_length fst data), I. unfold hours_index. rewrite grid_length. reflexivity. }
  apply nth_ext with (d := NaN) (d' := observed cols 0); [rewrite L, map_length, seq_length; reflexivity|].
  intros k Hk. rewrite L in Hk. rewrite (map_nth (observed cols)), seq_nth by exact Hk. cbn [Nat.add].
  assert (Hi : (k / 24 < S n)%nat) by (apply Nat.div_lt_upper_bound; lia). assert (Hh : (k mod 24 < 24)%nat) by (apply Nat.mod_upper_bound; lia).
  specialize (V (k / 24)%nat (k mod 24)%nat Hi Hh). rewrite <- column_lookup in V. fold (observed cols k) in V. change (n_nan : xr) with NaN in V.
  unfold observed. rewrite <- V.
  assert (C : data = combine (hours_index d0 (S n)) (map snd data)).
  { rewrite <- I. clear. induction data as [|[t x] r IH]; [reflexivity|]. cbn [map combine fst snd]. f_equal. exact IH. }
  rewrite C at 2. rewrite values_on_hours by (rewrite ?L; lia). rewrite chunk_nth by exact Hh.
  rewrite <- (Nat.div_mod k 24) by lia. reflexivity.
Qed.

(** ** what Station.interpolate returns, hour by hour *)
Theorem C66_station e d0 n (cols : list (Z * list xr)) dir limit : (forall m, limit = Some m -> 1 <= m) -> has_series_append e = true ->
  Forall (fun c => 0 <= fst c < 24 /\ length (snd c) = S n) cols -> NoDup (map fst cols) ->
  exists out, station_interpolate e dir limit (daily_index d0 (S n)) cols = Ok out /\ map fst out = hours_index d0 (S n) /\
    forall k, (k < 24 * S n)%nat ->
      (* an observation is kept *)
      (forall r, observed cols k = Fin r -> nth k (map snd out) NaN = Fin r) /\
      (* between two neighbouring observations *)
      (forall p q a b, (p < k < q)%nat -> (q < 24 * S n)%nat -> observed cols p = Fin a -> observed cols q = Fin b ->
        (forall j, (p < j < q)%nat -> observed cols j = NaN) ->
        nth k (map snd out) NaN =
          if forward_ok dir limit (Z.of_nat k - Z.of_nat p) || backward_ok dir limit (Z.of_nat q - Z.of_nat k)
          then Fin (a + (b - a) * (INR k - INR p) / (INR q - INR p)) else NaN) /\
      (* before the first one *)
      (forall q b, (k < q < 24 * S n)%nat -> observed cols q = Fin b -> (forall j, (j < q)%nat -> observed cols j = NaN) ->
        nth k (map snd out) NaN = if backward_ok dir limit (Z.of_nat q - Z.of_nat k) then Fin b else NaN) /\
      (* after the last one *)
      (forall p a, (p < k)%nat -> observed cols p = Fin a -> (forall j, (p < j < 24 * S n)%nat -> observed cols j = NaN) ->
        nth k (map snd out) NaN = if forward_ok dir limit (Z.of_nat k - Z.of_nat p) then Fin a else NaN) /\
      (* nothing observed *)
      ((forall j, (j < 24 * S n)%nat -> observed cols j = NaN) -> nth k (map snd out) NaN = NaN).
Proof.
  intros HL HE F ND. destruct (prepared_values e d0 n cols HE F ND) as (data & E & I & V). set (N := (24 * S n)%nat) in *.
  set (ob := observed cols) in *.
  exists (combine (index data) (interpolate_linear dir limit (values data))).
  assert (LV : length (values data) = N) by (unfold values; rewrite V, map_length, seq_length; reflexivity).
  assert (LI : length (index data) = N) by (unfold index; rewrite I; unfold hours_index; rewrite grid_length; reflexivity).
  split.
  { unfold station_interpolate. rewrite E. cbn [bind]. destruct limit as [m|]; [|reflexivity]. specialize (HL m eq_refl). destruct (Z.ltb_spec m 1); [lia|reflexivity]. }
  split; [rewrite map_fst_combine by (rewrite interp_length, LV; exact LI); unfold index; exact I|].
  rewrite map_snd_combine by (rewrite interp_length, LV; exact LI). unfold values. rewrite V. clear LV LI.
  intros k Hk.
  assert (O : forall j, (j < N)%nat -> nth j (map ob (seq 0 N)) NaN = ob j).
  { intros j Hj. rewrite nth_indep with (d' := ob 0%nat) by (rewrite map_length, seq_length; exact Hj). rewrite (map_nth ob), seq_nth by exact Hj. reflexivity. }
  split; [|split; [|split; [|split]]].
  - intros r Hr. apply interp_keeps. rewrite O by exact Hk. exact Hr.
  - intros p q a b Hp Hq Ha Hb G.
    assert (S : map ob (seq 0 N) = (map ob (seq 0 p) ++ Fin a :: repeat NaN (q - p - 1) ++ Fin b :: map ob (seq (q + 1) (N - q - 1)))%list).
    { rewrite (map_seq_split ob p (q - p + 1)) by lia. f_equal. replace (q - p + 1)%nat with (1 + (q - p - 1 + 1))%nat by lia.
      rewrite (seq_app 1), map_app. cbn [seq map app]. rewrite Ha. f_equal. rewrite seq_app, map_app, <- app_assoc. rewrite map_nan by (intros j Hj; apply G; lia).
      f_equal. cbn [seq map app]. replace (p + 1 + (q - p - 1))%nat with q by lia. rewrite Hb. f_equal. do 2 f_equal; lia. }
    rewrite S. pose proof (interp_inside dir limit (map ob (seq 0 p)) a (q - p - 1) b (map ob (seq (q + 1) (N - q - 1))) (k - p - 1) ltac:(lia)) as H. cbv zeta in H.
    rewrite map_length, seq_length in H. replace (p + 1 + (k - p - 1))%nat with k in H by lia. rewrite H.
    replace (Z.of_nat (k - p - 1) + 1) with (Z.of_nat k - Z.of_nat p) by lia.
    replace (Z.of_nat (q - p - 1) - Z.of_nat (k - p - 1)) with (Z.of_nat q - Z.of_nat k) by lia.
    replace (INR (k - p - 1) + 1)%R with (INR k - INR p)%R by (rewrite <- S_INR, <- minus_INR by lia; f_equal; lia).
    replace (INR (q - p - 1) + 1)%R with (INR q - INR p)%R by (rewrite <- S_INR, <- minus_INR by lia; f_equal; lia). reflexivity.
  - intros q b Hq Hb G.
    assert (S : map ob (seq 0 N) = (repeat NaN q ++ Fin b :: map ob (seq (q + 1) (N - q - 1)))%list).
    { rewrite (map_seq_split ob q 1) by lia. rewrite map_nan by (intros j Hj; apply G; lia). f_equal. cbn [seq map app]. rewrite Hb. reflexivity. }
    rewrite S. apply interp_leading. lia.
  - intros p a Hp Ha G.
    assert (S : map ob (seq 0 N) = (map ob (seq 0 p) ++ Fin a :: repeat NaN (N - p - 1))%list).
    { rewrite (map_seq_split ob p 1) by lia. f_equal. cbn [seq map app]. rewrite Ha. f_equal. apply map_nan. intros j Hj. apply G. lia. }
    rewrite S. pose proof (interp_trailing dir limit (map ob (seq 0 p)) a (N - p - 1) (k - p - 1) ltac:(lia)) as H.
    rewrite map_length, seq_length in H. replace (p + 1 + (k - p - 1))%nat with k in H by lia. rewrite H.
    replace (Z.of_nat (k - p - 1) + 1) with (Z.of_nat k - Z.of_nat p) by lia. reflexivity.
  - intro G. rewrite interp_nth by (rewrite map_length, seq_length; exact Hk). rewrite map_nan by (intros j Hj; apply G; lia).
    unfold interp_at. change (n_nan : xr) with NaN.
    assert (R : forall j, nth j (repeat NaN N) NaN = NaN) by (intro j; destruct (Nat.lt_ge_cases j N); [apply (repeat_spec N NaN), nth_In; rewrite repeat_length; assumption|apply nth_overflow; rewrite repeat_length; lia]).
    rewrite R. cbn [n_isnan Num_xr xisnan].
    rewrite !scan_none; [destruct (preserved _ _ _ _); reflexivity| |].
    + apply Forall_forall. intros y Hy. apply In_nth with (d := NaN) in Hy as (j & _ & <-). 
      rewrite <- (firstn_skipn (Datatypes.S k) (repeat NaN N)) in R. specialize (R (length (firstn (Datatypes.S k) (repeat NaN N)) + j)%nat). rewrite app_nth2_plus in R. rewrite R. reflexivity.
    + apply Forall_rev, Forall_forall. intros y Hy. assert (IN : In y (repeat NaN N)) by (rewrite <- (firstn_skipn k); apply in_or_app; left; exact Hy).
      apply repeat_spec in IN. subst y. reflexivity.
Qed.
Print Assumptions C66_station.

(** ** a limit below one is refused *)
Theorem C66_limit e d0 n (cols : list (Z * list xr)) dir m : has_series_append e = true ->
  Forall (fun c => 0 <= fst c < 24 /\ length (snd c) = S n) cols -> NoDup (map fst cols) -> m < 1 ->
  station_interpolate e dir (Some m) (daily_index d0 (S n)) cols = Err ValueError.
Proof.
  intros HE F ND HM. destruct (prepared_values e d0 n cols HE F ND) as (data & E & _). unfold station_interpolate. rewrite E. cbn [bind].
  destruct (Z.ltb_spec m 1); [reflexivity|lia].
Qed.
Print Assumptions C66_limit.

(** two columns over two days, the afternoon of the second day missing *)
Example C66_station_met : let cols := [(7, [Fin 1; Fin 2]); (14, [Fin 9; NaN])] in
  Forall (fun c => 0 <= fst c < 24 /\ length (snd c) = 2%nat) cols /\ NoDup (map fst cols) /\
  observed cols 7 = Fin 1 /\ observed cols 14 = Fin 9 /\ observed cols 31 = Fin 2 /\
  exists out, station_interpolate legacy Both (Some 24) (daily_index 19000 2) cols = Ok out /\ nth 10 (map snd out) NaN = Fin (1 + (9 - 1) * (INR 10 - INR 7) / (INR 14 - INR 7)) /\
    nth 0 (map snd out) NaN = Fin 1 /\ nth 47 (map snd out) NaN = Fin 2.
Proof.
  cbv zeta. set (cols := [(7, [Fin 1; Fin 2]); (14, [Fin 9; NaN])]).
  assert (A : Forall (fun c => 0 <= fst c < 24 /\ length (snd c) = 2%nat) cols) by (repeat constructor; cbn; lia).
  assert (B : NoDup (map fst cols)) by (cbn; constructor; [intros [C|[]]; discriminate|]; constructor; [intros []|constructor]).
  split; [exact A|]. split; [exact B|]. do 3 (split; [reflexivity|]).
  destruct (C66_station legacy 19000 1 cols Both (Some 24) ltac:(intros m Q; injection Q as <-; lia) eq_refl A B) as (out & E & _ & V). exists out. split; [exact E|].
  split; [|split].
  - destruct (V 10%nat ltac:(lia)) as (_ & H & _). apply (H 7%nat 14%nat 1 9)%R; try reflexivity; try lia.
    intros j Hj. assert (D : (j = 8 \/ j = 9 \/ j = 10 \/ j = 11 \/ j = 12 \/ j = 13)%nat) by lia. repeat (destruct D as [->|D]; [reflexivity|]). subst. reflexivity.
  - destruct (V 0%nat ltac:(lia)) as (_ & _ & H & _). apply (H 7%nat 1)%R; try reflexivity; try lia.
    intros j Hj. do 7 (destruct j as [|j]; [reflexivity|]). lia.
  - destruct (V 47%nat ltac:(lia)) as (_ & _ & _ & H & _). apply (H 31%nat 2)%R; try reflexivity; try lia.
    intros j Hj. assert (D : exists i, j = (32 + i)%nat /\ (i < 16)%nat) by (exists (j - 32)%nat; lia). destruct D as (i & -> & Hi).
    do 16 (destruct i as [|i]; [reflexivity|]). lia.
Qed.
