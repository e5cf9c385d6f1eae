(** Lemmas about equidistant indices, [hourly_index] and day-wise selection. *)
From Coq Require Import ZArith List Bool Lia Reals Lra.
From Verif Require Import Py Num Cal Series UtilModel SpecBase.
Import ListNotations.
Open Scope Z_scope.

(** ** grids *)
Lemma grid_length t0 st n : length (grid t0 st n) = n.
Proof. unfold grid; rewrite map_length, seq_length; reflexivity. Qed.

Lemma grid_S t0 st n : grid t0 st (S n) = t0 :: grid (t0 + st) st n.
Proof.
  unfold grid; cbn [seq map]. f_equal; [lia|].
  rewrite <- seq_shift, map_map. apply map_ext; intro; lia.
Qed.

Lemma grid_app t0 st n m : grid t0 st (n + m) = grid t0 st n ++ grid (t0 + Z.of_nat n * st) st m.
Proof.
  revert t0; induction n as [|n IH]; intro t0.
  - change (grid t0 st 0) with (@nil Z). cbn [Nat.add app]. f_equal; lia.
  - cbn [Nat.add]. rewrite !grid_S, IH. cbn [app]. do 3 f_equal. lia.
Qed.

Lemma grid_In t0 st n x :
  In x (grid t0 st n) <-> exists i, (i < n)%nat /\ x = t0 + Z.of_nat i * st.
Proof.
  unfold grid; rewrite in_map_iff. split.
  - intros (i & <- & Hi). apply in_seq in Hi. exists i; split; [lia|reflexivity].
  - intros (i & Hi & ->). exists i; split; [reflexivity|apply in_seq; lia].
Qed.

Lemma grid_nth t0 st n i d : (i < n)%nat -> nth i (grid t0 st n) d = t0 + Z.of_nat i * st.
Proof.
  intro Hi. unfold grid. rewrite nth_indep with (d' := t0 + Z.of_nat 0 * st)
    by (rewrite map_length, seq_length; lia).
  rewrite (map_nth (fun i => t0 + Z.of_nat i * st)), seq_nth by lia. reflexivity.
Qed.

Lemma idx_min_grid t0 st n : 0 <= st -> idx_min (grid t0 st (S n)) = Some t0.
Proof.
  intro Hst. rewrite grid_S. cbn [idx_min]. f_equal.
  assert (H : forall n a, t0 <= a -> fold_left Z.min (grid a st n) t0 = t0).
  { clear n; induction n as [|n IH]; intros a Ha; [reflexivity|].
    rewrite grid_S; cbn [fold_left]. rewrite Z.min_l by lia. apply IH; lia. }
  apply H; lia.
Qed.

Lemma idx_max_grid t0 st n : 0 <= st -> idx_max (grid t0 st (S n)) = Some (t0 + Z.of_nat n * st).
Proof.
  intro Hst. rewrite grid_S. cbn [idx_max]. f_equal.
  revert t0; induction n as [|n IH]; intro t0; [cbn; lia|].
  rewrite grid_S; cbn [fold_left]. rewrite Z.max_r by lia. rewrite IH. lia.
Qed.

Lemma date_range_grid a b st : 0 < st -> a <= b ->
  date_range a b st = grid a st (Z.to_nat ((b - a) / st + 1)).
Proof.
  intros Hst Hab. unfold date_range. destruct (Z.ltb_spec b a); [lia|reflexivity].
Qed.

(** ** hourly_index on gap-free days (any offset r below one hour) *)
Lemma hourly_index_shifted e f d0 r n : 0 <= r < us_hour ->
  hourly_index_gen e f (grid (d0 * us_day + r) us_day (S n))
  = Ok (grid (d0 * us_day + r) us_hour (24 * S n)).
Proof.
  intro Hr. unfold hourly_index_gen.
  rewrite idx_min_grid, idx_max_grid by (unfold us_day; lia).
  assert (E : replace_hour (d0 * us_day + r + Z.of_nat n * us_day) 23
              = d0 * us_day + r + (24 * Z.of_nat (S n) - 1) * us_hour).
  { unfold replace_hour.
    pose proof (date_hour_split (d0 + Z.of_nat n) 0 r ltac:(lia) Hr) as (A & B & C).
    unfold midnight in *.
    replace (d0 * us_day + r + Z.of_nat n * us_day)
      with ((d0 + Z.of_nat n) * us_day + 0 * us_hour + r) by lia.
    rewrite A, C. unfold us_day, us_hour in *. lia. }
  rewrite E. unfold us_hour, us_day in *.
  rewrite date_range_grid by lia.
  replace (Z.to_nat _) with (24 * S n)%nat.
  2:{ replace (d0 * 86400000000 + r + (24 * Z.of_nat (S n) - 1) * 3600000000 - (d0 * 86400000000 + r))
        with ((24 * Z.of_nat (S n) - 1) * 3600000000) by lia.
      rewrite Z.div_mul by lia. lia. }
  rewrite !grid_length.
  assert (L : Nat.ltb (S n * 24) (24 * S n) = false) by (apply Nat.ltb_ge; lia).
  rewrite L, andb_false_r. reflexivity.
Qed.

Lemma hourly_index_daily e f d0 n :
  hourly_index_gen e f (daily_index d0 (S n)) = Ok (hours_index d0 (S n)).
Proof.
  pose proof (hourly_index_shifted e f d0 0 n ltac:(unfold us_hour; lia)) as H.
  rewrite Z.add_0_r in H. exact H.
Qed.

(** ** selecting one day from an equidistant series *)
Lemma values_on_app {A} d (s1 s2 : list (Z * A)) :
  values_on d (s1 ++ s2) = values_on d s1 ++ values_on d s2.
Proof. unfold values_on. rewrite filter_app, map_app. reflexivity. Qed.

Lemma values_on_none {A} d (s : list (Z * A)) :
  (forall p, In p s -> fst p / us_day <> d) -> values_on d s = [].
Proof.
  unfold values_on. induction s as [|p s IH]; intro H; [reflexivity|].
  cbn [filter]. destruct (Z.eqb_spec (fst p / us_day) d) as [E|E].
  - exfalso; exact (H p (or_introl eq_refl) E).
  - apply IH. intros q Hq; apply H; right; exact Hq.
Qed.

Lemma values_on_all {A} d (s : list (Z * A)) :
  (forall p, In p s -> fst p / us_day = d) -> values_on d s = map snd s.
Proof.
  unfold values_on. induction s as [|p s IH]; intro H; [reflexivity|].
  cbn [filter]. destruct (Z.eqb_spec (fst p / us_day) d) as [E|E].
  - cbn [map]. f_equal. apply IH. intros q Hq; apply H; right; exact Hq.
  - exfalso; apply E, H; left; reflexivity.
Qed.

Lemma combine_app {A B} (a1 a2 : list A) (b1 b2 : list B) : length a1 = length b1 ->
  combine (a1 ++ a2) (b1 ++ b2) = combine a1 b1 ++ combine a2 b2.
Proof.
  revert b1; induction a1 as [|x a1 IH]; intros [|y b1] H; try discriminate; [reflexivity|].
  cbn [app combine]. f_equal. apply IH. injection H; auto.
Qed.

Lemma map_fst_combine {A B} (a : list A) (b : list B) : length a = length b ->
  map fst (combine a b) = a.
Proof.
  revert b; induction a as [|x a IH]; intros [|y b] H; try discriminate; [reflexivity|].
  cbn. f_equal. apply IH. injection H; auto.
Qed.
Lemma map_snd_combine {A B} (a : list A) (b : list B) : length a = length b ->
  map snd (combine a b) = b.
Proof.
  revert b; induction a as [|x a IH]; intros [|y b] H; try discriminate; [reflexivity|].
  cbn. f_equal. apply IH. injection H; auto.
Qed.

Lemma daily_fst {A} d0 (a : list A) : map fst (daily d0 a) = daily_index d0 (length a).
Proof. unfold daily. apply map_fst_combine. apply grid_length. Qed.
Lemma daily_snd {A} d0 (a : list A) : map snd (daily d0 a) = a.
Proof. unfold daily. apply map_snd_combine. apply grid_length. Qed.
Lemma daily_length {A} d0 (a : list A) : length (daily d0 a) = length a.
Proof. rewrite <- (map_length snd), daily_snd. reflexivity. Qed.

(** [k] steps of length [st] make a day *)
Lemma grid_day_dates k st d0 t :
  0 < st -> Z.of_nat k * st = us_day -> In t (grid (d0 * us_day) st k) -> t / us_day = d0.
Proof.
  intros Hst E HI. apply grid_In in HI. destruct HI as (i & Hi & ->).
  symmetry. apply Z.div_unique with (r := Z.of_nat i * st); [|lia].
  left; split; [nia|]. rewrite <- E. nia.
Qed.

Lemma skipn_add {A} a b (l : list A) : skipn (a + b) l = skipn b (skipn a l).
Proof.
  revert l; induction a as [|a IH]; intro l; [reflexivity|].
  destruct l as [|x l]; [rewrite !skipn_nil; reflexivity|]. cbn. apply IH.
Qed.

Lemma values_on_grid {A} k st n : 0 < st -> Z.of_nat k * st = us_day ->
  forall d0 (vals : list A) i, length vals = (k * n)%nat -> (i < n)%nat ->
  values_on (d0 + Z.of_nat i) (combine (grid (d0 * us_day) st (k * n)) vals) = chunk k i vals.
Proof.
  intros Hst E. induction n as [|n IH]; intros d0 vals i Hl Hi; [lia|].
  replace (k * S n)%nat with (k + k * n)%nat in * by lia.
  rewrite <- (firstn_skipn k vals). rewrite grid_app, combine_app.
  2:{ rewrite grid_length, firstn_length. lia. }
  rewrite values_on_app.
  rewrite E. replace (d0 * us_day + us_day) with ((d0 + 1) * us_day) by lia.
  assert (F : forall p, In p (combine (grid (d0 * us_day) st k) (firstn k vals)) ->
              fst p / us_day = d0).
  { intros [t v] Hp. apply in_combine_l in Hp. cbn [fst].
    eapply grid_day_dates; eassumption. }
  destruct i as [|i].
  - rewrite values_on_all, map_snd_combine by
      (try rewrite grid_length, firstn_length; try lia; cbn [Z.of_nat]; try rewrite Z.add_0_r; exact F).
    rewrite values_on_none.
    + rewrite app_nil_r, firstn_skipn. unfold chunk. rewrite Nat.mul_0_r. reflexivity.
    + intros [t v] Hp. apply in_combine_l in Hp. cbn [fst]. apply grid_In in Hp.
      destruct Hp as (j & Hj & ->). cbn [Z.of_nat]. intro C.
      assert ((d0 + 1) * us_day + Z.of_nat j * st < (d0 + 1) * us_day).
      { pose proof (Z.div_mod ((d0 + 1) * us_day + Z.of_nat j * st) us_day ltac:(unfold us_day; lia)).
        pose proof (Z.mod_pos_bound ((d0 + 1) * us_day + Z.of_nat j * st) us_day ltac:(unfold us_day; lia)).
        rewrite C in H. lia. }
      nia.
  - rewrite values_on_none by (intros p Hp; rewrite (F p Hp); lia).
    cbn [app]. replace (d0 + Z.of_nat (S i)) with (d0 + 1 + Z.of_nat i) by lia.
    rewrite IH by (try rewrite skipn_length; lia).
    unfold chunk. replace (k * S i)%nat with (k + k * i)%nat by lia. rewrite skipn_add.
    rewrite firstn_skipn. reflexivity.
Qed.

Lemma values_on_hours {A} n d0 (vals : list A) i : length vals = (24 * n)%nat -> (i < n)%nat ->
  values_on (d0 + Z.of_nat i) (combine (hours_index d0 n) vals) = chunk 24 i vals.
Proof. apply values_on_grid; reflexivity. Qed.

Lemma values_on_daily {A} d0 (a : list A) i x : nth_error a i = Some x ->
  values_on (d0 + Z.of_nat i) (daily d0 a) = [x].
Proof.
  intro H. assert (Hi : (i < length a)%nat) by (apply nth_error_Some; congruence).
  unfold daily, daily_index. rewrite <- (Nat.mul_1_l (length a)) at 1.
  rewrite (values_on_grid 1 us_day (length a)) by (try reflexivity; lia).
  unfold chunk. rewrite Nat.mul_1_l.
  revert i H Hi. induction a as [|y a IH]; intros [|i] H Hi; cbn in *; try lia; try discriminate.
  - injection H as ->. reflexivity.
  - apply IH; [assumption|lia].
Qed.
