(** Proofs about the temperature model. *)
From Coq Require Import String ZArith List Bool Reals Lia Lra Sorted.
From Verif Require Import Py Num Cal Series Trans UtilModel UtilModel2 Frame TempModel SpecBase SpecUtil SpecTemp
  TimeProofs IndexProofs DaysProofs InterpProofs CourseProofs.
Import ListNotations.
Open Scope Z_scope.

Lemma nth_error_nth' {A} (l : list A) i d : (i < length l)%nat -> nth_error l i = Some (nth i l d).
Proof. revert i; induction l as [|a l IH]; intros [|i] H; cbn in *; try lia; [reflexivity|apply IH; lia]. Qed.

Lemma daily_cons {A} d0 (x : A) l : daily d0 (x :: l) = (d0 * us_day, x) :: daily (d0 + 1) l.
Proof.
  unfold daily, daily_index. cbn [length]. rewrite grid_S. cbn [combine]. do 2 f_equal. f_equal. lia.
Qed.

Lemma daily_index_S d0 n : daily_index d0 (S n) = d0 * us_day :: daily_index (d0 + 1) n.
Proof. unfold daily_index. rewrite grid_S. do 2 f_equal. lia. Qed.

Lemma last_le_daily {A} (l : list A) : forall d0 i h acc, (i < length l)%nat -> (h < 24)%nat ->
  last_le (stamp (d0 + Z.of_nat i) h) (daily d0 l) acc = nth_error l i.
Proof.
  induction l as [|x l IH]; intros d0 i h acc Hi Hh; [cbn in Hi; lia|].
  rewrite daily_cons. cbn [last_le].
  destruct (Z.leb_spec (d0 * us_day) (stamp (d0 + Z.of_nat i) h)) as [L|L]; [|unfold stamp, us_day, us_hour in *; lia].
  destruct i as [|i].
  - cbn [nth_error]. destruct l as [|y l]; [reflexivity|]. rewrite daily_cons. cbn [last_le].
    destruct (Z.leb_spec ((d0 + 1) * us_day) (stamp (d0 + Z.of_nat 0) h)) as [L2|L2]; [|reflexivity].
    exfalso. unfold stamp, us_day, us_hour in *. lia.
  - cbn [nth_error]. replace (d0 + Z.of_nat (S i)) with (d0 + 1 + Z.of_nat i) by lia. apply IH; cbn in Hi; lia.
Qed.

Lemma lookup_daily {A} (l : list A) : forall d0 i, lookup ((d0 + Z.of_nat i) * us_day) (daily d0 l) = nth_error l i.
Proof.
  induction l as [|x l IH]; intros d0 i; [destruct i; reflexivity|].
  rewrite daily_cons. cbn [lookup]. destruct i as [|i].
  - destruct (Z.eqb_spec (d0 * us_day) ((d0 + Z.of_nat 0) * us_day)) as [E|E]; [reflexivity|exfalso; apply E; f_equal; lia].
  - destruct (Z.eqb_spec (d0 * us_day) ((d0 + Z.of_nat (S i)) * us_day)) as [E|E]; [unfold us_day in E; lia|].
    replace (d0 + Z.of_nat (S i)) with (d0 + 1 + Z.of_nat i) by lia. apply IH.
Qed.
Lemma daily_has_dup d0 n : has_dup (daily_index d0 n) = false.
Proof.
  apply not_true_iff_false. intro H.
  assert (ND : NoDup (daily_index d0 n)) by (apply sorted_NoDup, grid_sorted; reflexivity).
  apply has_dup_NoDup in ND. congruence.
Qed.
Lemma grid_increasing t0 st n : 0 <= st -> is_increasing (grid t0 st n) = true.
Proof.
  intro H. revert t0. induction n as [|[|n] IH]; intro t0; try reflexivity.
  rewrite grid_S. specialize (IH (t0 + st)). rewrite grid_S in IH |- *. cbn [is_increasing]. cbn [is_increasing] in IH. rewrite IH.
  rewrite andb_true_r. apply Z.leb_le. lia.
Qed.

Lemma mapM_map {A B C} (f : B -> res C) (g : A -> B) l : mapM f (map g l) = mapM (fun a => f (g a)) l.
Proof. induction l as [|a l IH]; cbn; [reflexivity|]. rewrite IH. reflexivity. Qed.
Lemma mapM_Ok {A B} (f : A -> res B) (g : A -> B) l : (forall a, In a l -> f a = Ok (g a)) -> mapM f l = Ok (map g l).
Proof.
  induction l as [|a l IH]; intro H; cbn; [reflexivity|]. rewrite H by (left; reflexivity). cbn. rewrite IH by (intros; apply H; right; assumption). reflexivity.
Qed.
Lemma mapM_inv {A B} (f : A -> res B) l out : mapM f l = Ok out -> Forall2 (fun a b => f a = Ok b) l out.
Proof.
  revert out; induction l as [|a l IH]; cbn; intros out E; [injection E as <-; constructor|].
  destruct (f a) as [b|] eqn:EA; [|discriminate]. cbn in E. destruct (mapM f l) as [bs|]; [|discriminate]. cbn in E. injection E as <-. constructor; auto.
Qed.

(** ** the rows of locdf *)
Definition mkrow (mins maxs : list Z) (tmin tmax temp : list xr) (i : nat) : loc_row :=
  {| min_loc := nth i mins 0; max_loc := nth i maxs 0;
     min_val_before := prev_day tmin i; min_val_cur := nth i tmin NaN; min_val_next := next_day tmin i;
     max_val_before := prev_day tmax i; max_val_cur := nth i tmax NaN; max_val_next := next_day tmax i;
     mean_val_cur := nth i temp NaN |}.

Lemma combine_seq {A B} (a : list A) (b : list B) da db n : length a = n -> length b = n ->
  combine a b = map (fun i => (nth i a da, nth i b db)) (seq 0 n).
Proof.
  revert b n; induction a as [|x a IH]; intros [|y b] [|n] HA HB; try discriminate; [reflexivity|].
  cbn [combine seq map nth]. f_equal. rewrite <- seq_shift, map_map. apply IH; cbn in *; lia.
Qed.
Lemma list_seq {A} (a : list A) d : a = map (fun i => nth i a d) (seq 0 (length a)).
Proof. induction a as [|x a IH]; [reflexivity|]. cbn [length seq map nth]. f_equal. rewrite <- seq_shift, map_map. exact IH. Qed.

Lemma get_daily d0 (l : list xr) i : (i < length l)%nat ->
  match lookup ((d0 + Z.of_nat i) * us_day) (daily d0 l) with Some v => v | None => NaN end = nth i l NaN.
Proof. intro H. rewrite lookup_daily, (nth_error_nth' l i NaN H). reflexivity. Qed.

Lemma loc_rows_daily d0 mins maxs tmin tmax temp : temp <> [] ->
  length tmin = length temp -> length tmax = length temp -> length mins = length temp -> length maxs = length temp ->
  loc_rows (daily_index d0 (length temp)) mins maxs (daily d0 tmin) (daily d0 tmax) (daily d0 temp)
  = daily d0 (map (mkrow mins maxs tmin tmax temp) (seq 0 (length temp))).
Proof.
  intros NE L1 L2 L3 L4. set (n := length temp) in *. 
  assert (PN : (0 < n)%nat) by (destruct temp; [contradiction|cbn in n; unfold n; lia]).
  assert (LI : length (daily_index d0 n) = n) by apply grid_length.
  rewrite daily_seq. unfold loc_rows.
  rewrite (combine_seq (daily_index d0 n) mins 0 0 n LI L3).
  rewrite (combine_seq _ maxs (0, 0) 0 n); [|rewrite map_length, seq_length; reflexivity|exact L4]. rewrite map_map.
  apply map_ext_in. intros i Hi. apply in_seq in Hi.
  replace (nth i (map (fun i => (nth i (daily_index d0 n) 0, nth i mins 0)) (seq 0 n)) (0, 0)) with (nth i (daily_index d0 n) 0, nth i mins 0).
  2: { set (F := fun i => (nth i (daily_index d0 n) 0, nth i mins 0)). 
       rewrite (nth_indep _ (0, 0) (F O)) by (rewrite map_length, seq_length; lia). rewrite (map_nth F), seq_nth by lia. reflexivity. }
  assert (EI : nth i (daily_index d0 n) 0 = (d0 + Z.of_nat i) * us_day) by (unfold daily_index; rewrite grid_nth by lia; lia).
  rewrite EI.
  assert (EL : last (daily_index d0 n) 0 = (d0 + Z.of_nat (n - 1)) * us_day).
  { unfold daily_index. replace n with (n - 1 + 1)%nat at 1 by lia. rewrite grid_app. cbn. rewrite last_last. lia. }
  assert (EH : hd 0 (daily_index d0 n) = d0 * us_day) by (destruct n; [lia|]; rewrite daily_index_S; reflexivity).
  rewrite EL, EH. f_equal. unfold mkrow. cbv beta zeta.
  rewrite !(get_daily d0) by lia.
  assert (NX : forall l : list xr, length l = n ->
    (if (d0 + Z.of_nat i) * us_day =? (d0 + Z.of_nat (n - 1)) * us_day then nth i l NaN else label_shift (daily d0 l) (-1) ((d0 + Z.of_nat i) * us_day)) = next_day l i).
  { intros l Hl. unfold next_day. rewrite Hl. destruct (Nat.eqb_spec (S i) n) as [E|E].
    - replace (n - 1)%nat with i by lia. rewrite Z.eqb_refl. reflexivity.
    - destruct (Z.eqb_spec ((d0 + Z.of_nat i) * us_day) ((d0 + Z.of_nat (n - 1)) * us_day)) as [Q|Q]; [unfold us_day in Q; lia|].
      unfold label_shift. replace ((d0 + Z.of_nat i) * us_day - -1 * us_day) with ((d0 + Z.of_nat (S i)) * us_day) by lia. apply get_daily. lia. }
  assert (PV : forall l : list xr, length l = n ->
    (if (d0 + Z.of_nat i) * us_day =? d0 * us_day then nth i l NaN else label_shift (daily d0 l) 1 ((d0 + Z.of_nat i) * us_day)) = prev_day l i).
  { intros l Hl. unfold prev_day. destruct i as [|j].
    - destruct (Z.eqb_spec ((d0 + Z.of_nat 0) * us_day) (d0 * us_day)) as [Q|Q]; [reflexivity|exfalso; apply Q; f_equal; lia].
    - destruct (Z.eqb_spec ((d0 + Z.of_nat (S j)) * us_day) (d0 * us_day)) as [Q|Q]; [unfold us_day in Q; lia|].
      unfold label_shift. replace ((d0 + Z.of_nat (S j)) * us_day - 1 * us_day) with ((d0 + Z.of_nat j) * us_day) by lia. apply get_daily. lia. }
  rewrite !NX, !PV by assumption. reflexivity.
Qed.

(** ** the polar branch *)
Lemma no_polar e st hours : Forall (fun p => exists r, daylength (snd p) = Fin r /\ (3 <= r)%R) st -> polar_branch e st hours = Ok tt.
Proof.
  intro F. unfold polar_branch.
  replace (filter _ _) with (@nil (Z * bool)); [reflexivity|]. symmetry.
  induction F as [|[t r] st (x & E & Hx) F IH]; [reflexivity|]. cbn [map filter fst snd] in *. rewrite E.
  change (xltb (Fin x) (Fin 3)) with (Rltb x 3). cbn [n_ltb Num_xr n_ofZ xltb]. destruct (Rltb_spec x 3); [lra|]. exact IH.
Qed.
Lemma polar_branch_raises e st hours t r x : In (t, r) st -> daylength r = Fin x -> (x < 3)%R ->
  exists err, polar_branch e st hours = Err err.
Proof.
  intros HI E Hx. unfold polar_branch.
  set (polars := map (fun p => (fst p, (daylength (snd p) <? n_ofZ 3)%num)) st).
  destruct (map fst (filter (fun p => snd p) polars)) as [|d0 ds] eqn:EF.
  - exfalso. assert (In t (map fst (filter (fun p => snd p) polars))) as HT.
    { apply in_map_iff. exists (t, true). split; [reflexivity|]. apply filter_In. split; [|reflexivity].
      unfold polars. apply in_map_iff. exists (t, r). split; [|exact HI]. cbn [fst snd]. rewrite E. f_equal.
      cbn [n_ltb Num_xr n_ofZ xltb]. destruct (Rltb_spec x 3); [reflexivity|contradiction]. }
    rewrite EF in HT. destruct HT.
  - destruct (hourly_index e (d0 :: ds)) as [ph|err]; cbn [bind]; [|eauto].
    destruct (forallb (fun t => mem t hours) ph); [|eauto].
    destruct polars as [|q qs]; [discriminate|]. cbn [map bool_diff mask_ok forallb andb]. eauto.
Qed.

(** ** the sine methods on consecutive days *)
Lemma sine_ok e d d0 tmin tmax temp method mmt modn md mc st ml xl mins maxs : temp <> [] ->
  temp_frame d d0 tmin tmax temp ->
  (method = "sine_min_max" \/ method = "sine_mean" \/ method = "sine")%string ->
  locations (daily_index d0 (length temp)) mmt md (Some st) = Ok (ml, xl) ->
  mapM to_int ml = Ok mins -> mapM to_int xl = Ok maxs -> length mins = length temp -> length maxs = length temp ->
  Forall (fun p => exists r, daylength (snd p) = Fin r /\ (3 <= r)%R) st ->
  disaggregate_temperature e d method mmt modn md mc (Some st)
  = Ok (map (fun t => (t, match last_le t (daily d0 (map (mkrow mins maxs tmin tmax temp) (seq 0 (length temp)))) None with
                          | Some r => sine_hour (if String.eqb method "sine_mean" then SineMean else SineMinMax) modn r (hour_of t)
                          | None => NaN end)) (hours_index d0 (length temp))).
Proof.
  intros NE (FI & L1 & L2 & C1 & C2 & C3) HM HL H1 H2 L3 L4 NP. unfold disaggregate_temperature.
  replace (String.eqb method "sine_min_max" || String.eqb method "sine_mean" || String.eqb method "sine") with true
    by (destruct HM as [-> |[-> | ->]]; reflexivity).
  cbn [negb orb]. rewrite FI. assert (HI : hourly_index e (daily_index d0 (length temp)) = Ok (hours_index d0 (length temp))).
  { destruct temp; [contradiction|]. apply hourly_index_daily. }
  rewrite HI. cbn [bind]. rewrite HL. cbn [bind fst snd]. rewrite H1. cbn [bind]. rewrite H2. cbn [bind].
  unfold fcol. rewrite C1, C2, C3. cbn [bind]. rewrite daily_has_dup. unfold daily_index at 1. rewrite grid_increasing by (unfold us_day; lia).
  cbn [orb negb]. rewrite no_polar by exact NP. cbn [bind]. f_equal. rewrite FI.
  replace (combine (daily_index d0 (length temp)) tmin) with (daily d0 tmin) by (unfold daily; rewrite L1; reflexivity).
  replace (combine (daily_index d0 (length temp)) tmax) with (daily d0 tmax) by (unfold daily; rewrite L2; reflexivity).
  fold (daily d0 temp). rewrite loc_rows_daily by assumption. reflexivity.
Qed.

Lemma sine_day e d d0 tmin tmax temp method mmt modn md mc st ml xl mins maxs : temp <> [] ->
  temp_frame d d0 tmin tmax temp ->
  (method = "sine_min_max" \/ method = "sine_mean" \/ method = "sine")%string ->
  locations (daily_index d0 (length temp)) mmt md (Some st) = Ok (ml, xl) ->
  mapM to_int ml = Ok mins -> mapM to_int xl = Ok maxs -> length mins = length temp -> length maxs = length temp ->
  Forall (fun p => exists r, daylength (snd p) = Fin r /\ (3 <= r)%R) st ->
  exists out, disaggregate_temperature e d method mmt modn md mc (Some st) = Ok out /\
    map fst out = hours_index d0 (length temp) /\
    forall i, (i < length temp)%nat ->
      values_on (d0 + Z.of_nat i) out
      = map (fun h => sine_hour (if String.eqb method "sine_mean" then SineMean else SineMinMax) modn
                                (mkrow mins maxs tmin tmax temp i) (Z.of_nat h)) (seq 0 24).
Proof.
  intros NE F HM HL H1 H2 L3 L4 NP. eexists. split; [eapply sine_ok; eassumption|]. split; [rewrite map_map; apply map_id|].
  intros i Hi.
  set (rows := map (mkrow mins maxs tmin tmax temp) (seq 0 (length temp))).
  rewrite (values_on_map_hours (fun t => match last_le t (daily d0 rows) None with
                          | Some r => sine_hour (if String.eqb method "sine_mean" then SineMean else SineMinMax) modn r (hour_of t)
                          | None => NaN end)) by exact Hi.
  apply map_ext_in. intros h Hh. apply in_seq in Hh.
  assert (LR : length rows = length temp) by (unfold rows; rewrite map_length, seq_length; reflexivity).
  rewrite last_le_daily by lia. rewrite (nth_error_nth' rows i (mkrow mins maxs tmin tmax temp 0)) by lia. unfold rows.
  rewrite (map_nth (mkrow mins maxs tmin tmax temp)), seq_nth by lia. rewrite stamp_hour by lia. reflexivity.
Qed.

(** ** locations *)
Lemma Int_part_bounds r : (IZR (Int_part r) <= r < IZR (Int_part r) + 1)%R.
Proof. destruct (base_Int_part r) as [A B]. lra. Qed.
Lemma Int_part_IZR k : Int_part (IZR k) = k.
Proof.
  pose proof (Int_part_bounds (IZR k)) as [A B]. apply le_IZR in A. rewrite <- plus_IZR in B. apply lt_IZR in B. lia.
Qed.
Lemma Rtrunc_IZR k : Rtrunc (IZR k) = k.
Proof. unfold Rtrunc. destruct (Rltb (IZR k) 0); [rewrite <- opp_IZR|]; rewrite Int_part_IZR; lia. Qed.
Lemma Rround_rounds r : rounds_to r (Rround r).
Proof.
  unfold Rround, rounds_to. pose proof (Int_part_bounds r) as B. set (k := Int_part r) in *.
  destruct (Rltb_spec (r - IZR k) (1 / 2)) as [L|L].
  - left. rewrite Rabs_right by lra. exact L.
  - destruct (Rltb_spec (1 / 2) (r - IZR k)) as [G|G].
    + left. rewrite plus_IZR. rewrite Rabs_left by lra. lra.
    + destruct (Z.even k) eqn:E.
      * right. rewrite Rabs_right by lra. split; [lra|exact E].
      * right. rewrite plus_IZR, Rabs_left by lra. split; [lra|]. rewrite Z.even_add. rewrite E. reflexivity.
Qed.
(** the rounded value is unique *)
Lemma rounds_unique r a b : rounds_to r a -> rounds_to r b -> a = b.
Proof.
  unfold rounds_to. intros A B.
  assert (D : (Rabs (IZR a - IZR b) <= 1)%R).
  { replace (IZR a - IZR b)%R with ((r - IZR b) + - (r - IZR a))%R by ring. eapply Rle_trans; [apply Rabs_triang|].
    rewrite Rabs_Ropp. destruct A as [A|[A _]], B as [B|[B _]]; lra. }
  rewrite <- minus_IZR, <- abs_IZR in D. apply le_IZR in D.
  assert (E : a - b = 0 \/ a - b = 1 \/ a - b = -1) by lia. destruct E as [E|E]; [lia|]. exfalso.
  assert (S : (Rabs (r - IZR a) + Rabs (r - IZR b) >= 1)%R).
  { replace 1%R with (Rabs (IZR b - IZR a)).
    - replace (IZR b - IZR a)%R with ((r - IZR a) + - (r - IZR b))%R by ring. apply Rle_ge. eapply Rle_trans; [apply Rabs_triang|]. rewrite Rabs_Ropp. lra.
    - rewrite <- minus_IZR, <- abs_IZR. f_equal. lia. }
  destruct A as [A|[A EA]], B as [B|[B EB]]; try lra.
  assert (b = a + 1 \/ b = a - 1) as [-> | ->] by lia; rewrite ?Z.even_add, ?Z.even_sub, EA in EB; discriminate.
Qed.

Lemma map_nth_error_eq {A B C} (f : A -> C) (g : B -> C) l1 l2 i a b :
  map f l1 = map g l2 -> nth_error l1 i = Some a -> nth_error l2 i = Some b -> f a = g b.
Proof. intros E H1 H2. pose proof (f_equal (fun l => nth_error l i) E) as Q. cbn in Q. rewrite !nth_error_map, H1, H2 in Q. cbn in Q. congruence. Qed.

Lemma sun_days_table st d0 rise noon : sun_days st d0 rise noon ->
  exists rows, st = daily d0 rows /\ length rows = length rise /\
    forall i, (i < length rise)%nat -> exists r, nth_error rows i = Some r /\ sunrise r = Fin (nth i rise 0%R) /\ sunnoon r = Fin (nth i noon 0%R).
Proof.
  intros (I & L & R1 & R2 & _). exists (map snd st).
  assert (LS : length st = length rise) by (rewrite <- (map_length fst), I; apply grid_length).
  split; [|split; [rewrite map_length; exact LS|]].
  - unfold daily. rewrite map_length, LS, <- I. clear. induction st as [|[t r] st IH]; [reflexivity|]. cbn [map combine fst snd]. f_equal. exact IH.
  - intros i Hi. destruct (nth_error st i) as [[t r]|] eqn:E; [|apply nth_error_None in E; lia].
    exists r. split; [rewrite nth_error_map, E; reflexivity|]. 
    assert (E1 : nth_error rise i = Some (nth i rise 0%R)) by (apply nth_error_nth'; exact Hi).
    assert (E2 : nth_error noon i = Some (nth i noon 0%R)) by (apply nth_error_nth'; lia).
    split; [exact (map_nth_error_eq _ _ _ _ _ _ _ R1 E E1)|exact (map_nth_error_eq _ _ _ _ _ _ _ R2 E E2)].
Qed.

Lemma align_daily d0 n (l : list xr) : length l = n -> align (daily d0 l) (daily_index d0 n) = l.
Proof.
  intro L. unfold align. transitivity (map (fun i => nth i l NaN) (seq 0 n)); [|rewrite <- L; symmetry; apply list_seq].
  unfold daily_index, grid. rewrite map_map. apply map_ext_in. intros i Hi. apply in_seq in Hi.
  replace (d0 * us_day + Z.of_nat i * us_day) with ((d0 + Z.of_nat i) * us_day) by lia. apply get_daily. lia.
Qed.
Lemma sun_col_daily f d0 rows : sun_col f (daily d0 rows) = daily d0 (map f rows).
Proof. unfold sun_col. rewrite daily_map. reflexivity. Qed.

Definition loc_result (idx : list Z) mmt md st (mins maxs : list Z) : Prop :=
  exists ml xl, locations idx mmt md st = Ok (ml, xl) /\ mapM to_int ml = Ok mins /\ mapM to_int xl = Ok maxs.

Lemma mapM_to_int l : mapM to_int (map (fun k => Fin (IZR k)) l) = Ok l.
Proof. rewrite mapM_map. rewrite (mapM_Ok _ (fun k => k)); [rewrite map_id; reflexivity|]. intros a _. cbn. rewrite Rtrunc_IZR. reflexivity. Qed.

Lemma map_rows {A} (f : sun_row -> A) rows (g : nat -> A) n : length rows = n ->
  (forall i r, (i < n)%nat -> nth_error rows i = Some r -> f r = g i) -> map f rows = map g (seq 0 n).
Proof.
  revert g n; induction rows as [|r rows IH]; intros g [|n] L H; try discriminate; [reflexivity|].
  cbn [map seq]. f_equal; [apply (H O); [lia|reflexivity]|]. rewrite <- seq_shift, map_map. apply IH; [cbn in L; lia|].
  intros i x Hi Hx. apply (H (S i)); [lia|exact Hx].
Qed.

Definition dshift (delta : Z -> R) (d0 : Z) (i : nat) : R := delta (month_of_day (d0 + Z.of_nat i)).

Lemma locations_spec st d0 rise noon md delta mmt : sun_days st d0 rise noon -> usable mmt md delta ->
  exists mins maxs, loc_result (daily_index d0 (length rise)) mmt md (Some st) mins maxs /\
    length mins = length rise /\ length maxs = length rise /\
    forall i, (i < length rise)%nat ->
      located (nth i rise 0%R) (nth i noon 0%R) (dshift delta d0 i) mmt (nth i mins 0) (nth i maxs 0).
Proof.
  intros HS HO. set (n := length rise) in *.
  destruct (sun_days_table st d0 rise noon HS) as (rows & -> & LR & HR). fold n in LR, HR.
  assert (NTH : forall (g : nat -> Z) i, (i < n)%nat -> nth i (map g (seq 0 n)) 0 = g i).
  { intros g i Hi. rewrite (nth_indep _ 0 (g O)) by (rewrite map_length, seq_length; lia). rewrite (map_nth g), seq_nth by lia. reflexivity. }
  assert (LEN : forall g : nat -> Z, length (map g (seq 0 n)) = n) by (intro g; rewrite map_length, seq_length; reflexivity).
  assert (RMIN : map (fun r => xround (sunrise r)) rows = map (fun k => Fin (IZR k)) (map (fun i => Rround (nth i rise 0%R)) (seq 0 n))).
  { rewrite map_map. apply map_rows; [exact LR|]. intros i r Hi Hr. destruct (HR i Hi) as (r' & Hr' & E1 & _). assert (r' = r) by congruence. subst r'. rewrite E1. reflexivity. }
  assert (RNOON : map (fun r => (xround (sunnoon r) + n_ofZ 2)%num) rows = map (fun k => Fin (IZR k)) (map (fun i => Rround (nth i noon 0%R) + 2) (seq 0 n))).
  { rewrite map_map. apply map_rows; [exact LR|]. intros i r Hi Hr. destruct (HR i Hi) as (r' & Hr' & _ & E2). assert (r' = r) by congruence. subst r'. rewrite E2.
    cbn [xround n_ofZ Num_xr n_add xadd]. rewrite plus_IZR. reflexivity. }
  destruct HO as [-> |[-> |(-> & md' & -> & HD)]]; [| |rename md' into md].
  - exists (map (fun _ => 7) (seq 0 n)), (map (fun _ => 14) (seq 0 n)).
    split; [|split; [apply LEN|split; [apply LEN|intros i Hi; rewrite !NTH by exact Hi; constructor]]].
    do 2 eexists. unfold locations. cbn [String.eqb Ascii.eqb Bool.eqb]. split; [reflexivity|].
    assert (C : forall z, map (fun _ : Z => (n_ofZ z : xr)) (daily_index d0 n) = map (fun k => Fin (IZR k)) (map (fun _ : nat => z) (seq 0 n))).
    { intro z. unfold daily_index, grid. rewrite !map_map. reflexivity. }
    rewrite !C. split; apply mapM_to_int.
  - exists (map (fun i => Rround (nth i rise 0%R)) (seq 0 n)), (map (fun i => Rround (nth i noon 0%R) + 2) (seq 0 n)).
    split; [|split; [apply LEN|split; [apply LEN|intros i Hi; rewrite !NTH by exact Hi; constructor; apply Rround_rounds]]].
    do 2 eexists. unfold locations. cbn [String.eqb Ascii.eqb Bool.eqb]. split; [reflexivity|].
    rewrite !sun_col_daily, !align_daily by (rewrite map_length; exact LR). rewrite RMIN, RNOON. split; apply mapM_to_int.
  - set (mx := fun i => Rround (nth i noon 0 + dshift delta d0 i)%R).
    set (mn := fun i => Rround (nth i rise 0%R)).
    exists (map mn (seq 0 n)), (map (fun i => if mx i <? mn i then Rround (nth i noon 0%R) + 2 else mx i) (seq 0 n)).
    split; [|split; [apply LEN|split; [apply LEN|]]].
    2: { intros i Hi. rewrite !NTH by exact Hi. destruct (Z.ltb_spec (mx i) (mn i)).
         - eapply located_standard; [apply Rround_rounds|apply Rround_rounds|exact H|apply Rround_rounds].
         - constructor; [apply Rround_rounds|apply Rround_rounds|exact H]. }
    do 2 eexists. unfold locations. cbn [String.eqb Ascii.eqb Bool.eqb].
    set (deltas := map (fun i => Fin (dshift delta d0 i)) (seq 0 n)).
    assert (ED : mapM (fun t => match lookup (month_of t) md with Some v => Ok v | None => Err KeyError end) (daily_index d0 n) = Ok deltas).
    { unfold daily_index, grid. rewrite mapM_map. rewrite (mapM_Ok _ (fun i => Fin (dshift delta d0 i))); [reflexivity|].
      intros i _. replace (d0 * us_day + Z.of_nat i * us_day) with ((d0 + Z.of_nat i) * us_day) by lia.
      unfold month_of. rewrite day_start_date. rewrite <- entry_lookup, HD by apply month_range. reflexivity. }
    rewrite ED. cbn [bind]. assert (LD : length deltas = n) by (unfold deltas; rewrite map_length, seq_length; reflexivity).
    rewrite daily_length, LR, LD, Nat.eqb_refl. cbn [negb]. split; [reflexivity|].
    rewrite !sun_col_daily, !align_daily by (rewrite map_length; exact LR). rewrite RMIN.
    split; [apply mapM_to_int|].
    assert (EM : map (fun p => (fst (fst p), xround (sunnoon (snd (fst p)) + snd p)%num)) (combine (daily d0 rows) deltas)
                 = daily d0 (map (fun k => Fin (IZR k)) (map mx (seq 0 n)))).
    { rewrite map_map, daily_seq. rewrite (combine_seq (daily d0 rows) deltas (0, {| sunrise := NaN; sunnoon := NaN; sunset := NaN; daylength := NaN |}) NaN n)
        by (rewrite ?daily_length; assumption). rewrite map_map. apply map_ext_in. intros i Hi. apply in_seq in Hi. cbn [fst snd].
      destruct (HR i ltac:(lia)) as (r & Hr & _ & E2).
      assert (EN : nth_error (daily d0 rows) i = Some ((d0 + Z.of_nat i) * us_day, r)).
      { clear - Hr. revert d0 i Hr. induction rows as [|x rows IH]; intros d0 [|i] Hr; try discriminate.
        - rewrite daily_cons. cbn in *. injection Hr as ->. do 2 f_equal. f_equal. lia.
        - rewrite daily_cons. cbn [nth_error] in *. rewrite (IH (d0 + 1) i Hr). do 3 f_equal. lia. }
      rewrite (nth_error_nth _ _ _ EN). cbn [fst snd]. rewrite E2. unfold deltas.
      set (G := fun i0 => Fin (dshift delta d0 i0)). rewrite (nth_indep _ NaN (G O)) by (rewrite map_length, seq_length; lia).
      rewrite (map_nth G), seq_nth by lia. reflexivity. }
    fold deltas. rewrite EM, align_daily by (rewrite !map_length, seq_length; reflexivity). rewrite RNOON.
    rewrite !map_map.
    assert (CS : forall (a b c : nat -> xr), combine (combine (map a (seq 0 n)) (map b (seq 0 n))) (map c (seq 0 n)) = map (fun i => (a i, b i, c i)) (seq 0 n)).
    { intros a b c. generalize (seq 0 n). induction l as [|x l IH]; [reflexivity|]. cbn [map combine]. f_equal. exact IH. }
    rewrite CS, map_map.
    rewrite <- (mapM_to_int (map (fun i => if mx i <? mn i then Rround (nth i noon 0%R) + 2 else mx i) (seq 0 n))). f_equal. rewrite map_map. apply map_ext. intro i.
    cbn [n_ltb Num_xr xltb]. change (Rround (nth i rise 0%R)) with (mn i). destruct (Rltb_spec (IZR (mx i)) (IZR (mn i))) as [L|L], (Z.ltb_spec (mx i) (mn i)) as [Q|Q]; try reflexivity.
    + exfalso. apply (Zle_not_lt _ _ Q). apply lt_IZR. exact L.
    + exfalso. apply L. apply IZR_lt. exact Q.
Qed.

(** ** one hour *)
Lemma half_cos lo hi c : (-1 <= c <= 1)%R -> (lo <= hi)%R ->
  (lo <= lo + (hi - lo) / 2 + (hi - lo) / 2 * c <= hi)%R.
Proof. intros. split; nra. Qed.

Lemma sine_plain r h lo hi :
  (if h <? max_loc r then min_val_cur r else min_val_next r) = Fin lo ->
  (if h <? min_loc r then max_val_before r else max_val_cur r) = Fin hi ->
  sine_hour SineMinMax false r h = Fin (lo + (hi - lo) / 2 + (hi - lo) / 2 * cos (2 * PI / 24 * (IZR h - IZR (max_loc r))))%R.
Proof.
  intros E1 E2. unfold sine_hour. cbv zeta. rewrite E1, E2. unfold xpi. rewrite !nofZ_xr, !xsub_Fin, !xmul_Fin, !xdiv_Fin by lra.
  rewrite !xmul_Fin, xcos_Fin, xmul_Fin, !xadd_Fin. reflexivity.
Qed.
Lemma sine_avg r h lo hi m : min_val_cur r = Fin lo -> max_val_cur r = Fin hi -> mean_val_cur r = Fin m -> forall modn,
  sine_hour SineMean modn r h = Fin (m + (hi - lo) / 2 * cos (2 * PI / 24 * (IZR h - IZR (max_loc r))))%R.
Proof.
  intros E1 E2 E3 modn. unfold sine_hour. cbv zeta. rewrite E1, E2, E3. unfold xpi. rewrite !nofZ_xr, !xsub_Fin, !xmul_Fin, !xdiv_Fin by lra.
  rewrite !xmul_Fin, xcos_Fin, xmul_Fin, !xadd_Fin. reflexivity.
Qed.
(** the three pieces of the night-time modification *)
Definition night_angle (mn mx h : Z) : R :=
  (if mx <=? h then PI / (24 - (IZR mx - IZR mn)) * (IZR h - IZR mx)
   else if mn <? h then 1.25 * PI + 0.75 * PI / (IZR mx - IZR mn) * (IZR h - IZR mn)
   else PI / (24 - (IZR mx - IZR mn)) * (24 - IZR mx + IZR h))%R.
Lemma sine_night r h lo hi : min_loc r < max_loc r < min_loc r + 24 ->
  (if h <? max_loc r then min_val_cur r else min_val_next r) = Fin lo ->
  (if h <? min_loc r then max_val_before r else max_val_cur r) = Fin hi ->
  sine_hour SineMinMax true r h = Fin (lo + (hi - lo) / 2 + (hi - lo) / 2 * cos (night_angle (min_loc r) (max_loc r) h))%R.
Proof.
  intros [H1 H2] E1 E2. apply IZR_lt in H1. apply IZR_lt in H2. rewrite plus_IZR in H2.
  unfold sine_hour, night_angle. cbv zeta. rewrite E1, E2. unfold xpi. rewrite !nofZ_xr, !lit_xr by lia.
  cbn [Z.pow Z.pow_pos Pos.iter Z.mul Pos.mul Pos.add Pos.succ]. rewrite !xsub_Fin, !xmul_Fin, !xdiv_Fin by lra.
  destruct (max_loc r <=? h); [|destruct (min_loc r <? h)]; rewrite ?xmul_Fin, ?xadd_Fin, ?xmul_Fin, ?xadd_Fin, ?xcos_Fin, ?xmul_Fin, ?xadd_Fin; reflexivity.
Qed.

(** ** cosines of full and half turns *)
Lemma cos_turns x k : cos (x + IZR k * (2 * PI)) = cos x.
Proof.
  destruct (Z_le_gt_dec 0 k) as [H|H].
  - rewrite <- (Z2Nat.id k H), <- INR_IZR_INZ. rewrite <- (cos_period x (Z.to_nat k)). f_equal. ring.
  - assert (E : x = ((x + IZR k * (2 * PI)) + 2 * INR (Z.to_nat (- k)) * PI)%R).
    { rewrite INR_IZR_INZ, Z2Nat.id by lia. rewrite opp_IZR. ring. }
    rewrite E at 2. rewrite cos_period. reflexivity.
Qed.
Definition ang (z : Z) : R := (2 * PI / 24 * IZR z)%R.
Lemma cos_ang_turn z k : cos (ang (z + 24 * k)) = cos (ang z).
Proof. rewrite <- (cos_turns (ang z) k). f_equal. unfold ang. rewrite plus_IZR, mult_IZR. field. Qed.
Lemma cos_ang_half z : cos (ang (z + 12)) = (- cos (ang z))%R.
Proof. rewrite <- neg_cos. f_equal. unfold ang. rewrite plus_IZR. field. Qed.
Lemma ang_sub a b : (2 * PI / 24 * (IZR a - IZR b))%R = ang (a - b).
Proof. unfold ang. rewrite minus_IZR. reflexivity. Qed.
Lemma cos_sum_24 m : Rsum (map (fun h => cos (ang (Z.of_nat h - m))) (seq 0 24)) = 0%R.
Proof.
  assert (H : forall z, z < 12 -> cos (ang (z + 12 - m)) = (- cos (ang (z - m)))%R).
  { intros z _. rewrite <- cos_ang_half. do 2 f_equal. lia. }
  cbn [seq map]. unfold Rsum. cbn [fold_right].
  pose proof (H 0 ltac:(lia)). pose proof (H 1 ltac:(lia)). pose proof (H 2 ltac:(lia)). pose proof (H 3 ltac:(lia)). pose proof (H 4 ltac:(lia)).
  pose proof (H 5 ltac:(lia)). pose proof (H 6 ltac:(lia)). pose proof (H 7 ltac:(lia)). pose proof (H 8 ltac:(lia)). pose proof (H 9 ltac:(lia)).
  pose proof (H 10 ltac:(lia)). pose proof (H 11 ltac:(lia)). cbn [Z.add Pos.add Pos.succ Pos.add_carry] in *.
  cbn [Z.of_nat Pos.of_succ_nat Pos.succ]. lra.
Qed.
Lemma cos_ang_0 : cos (ang 0) = 1%R.
Proof. unfold ang. rewrite Rmult_0_r. apply cos_0. Qed.
