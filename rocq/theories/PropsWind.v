(** Properties C50, C51, C78: wind speed. *)
From Coq Require Import String ZArith List Bool Lia Reals Lra.
From Verif Require Import Py Num Cal Series UtilModel UtilModel2 Trans Frame WindModel SpecBase SpecUtil TimeProofs IndexProofs
  DaysProofs TempProofs TempCourse RadProofs HumProofs PropsHum.
Import ListNotations.
Open Scope string_scope.
Open Scope Z_scope.
Open Scope list_scope.

(** the cosine law *)
Definition cosine_R (w h a b s : R) : R := (a * w * cos (PI * (h - s) / 12) + b * w)%R.
Lemma cosine1_Fin w h a b s : cosine1 (Fin w) (n_ofZ h) (Fin a) (Fin b) (Fin s) = Fin (cosine_R w (IZR h) a b s).
Proof.
  unfold cosine1, cosine_R. rewrite !nofZ_xr. change xpi with (Fin PI). rewrite xsub_Fin, !xmul_Fin, xdiv_Fin, xcos_Fin by lra. rewrite xmul_Fin, xadd_Fin. reflexivity.
Qed.
Lemma cosine_half w h a b s : cosine_R w (IZR (h + 12)) a b s = (2 * b * w - cosine_R w (IZR h) a b s)%R.
Proof.
  unfold cosine_R. rewrite plus_IZR. replace (PI * (IZR h + 12 - s) / 12)%R with (PI * (IZR h - s) / 12 + PI)%R by field. rewrite neg_cos. ring.
Qed.
Lemma cosine_sum w a b s : Rsum (map (fun h => cosine_R w (IZR (Z.of_nat h)) a b s) (seq 0 24)) = (24 * (b * w))%R.
Proof.
  unfold Rsum. cbn [seq map fold_right Z.of_nat Pos.of_succ_nat Pos.succ].
  pose proof (cosine_half w 0 a b s) as Q0; pose proof (cosine_half w 1 a b s) as Q1; pose proof (cosine_half w 2 a b s) as Q2; pose proof (cosine_half w 3 a b s) as Q3;
  pose proof (cosine_half w 4 a b s) as Q4; pose proof (cosine_half w 5 a b s) as Q5; pose proof (cosine_half w 6 a b s) as Q6; pose proof (cosine_half w 7 a b s) as Q7;
  pose proof (cosine_half w 8 a b s) as Q8; pose proof (cosine_half w 9 a b s) as Q9; pose proof (cosine_half w 10 a b s) as Q10; pose proof (cosine_half w 11 a b s) as Q11.
  cbn [Z.add Pos.add Pos.succ] in *. rewrite Q0, Q1, Q2, Q3, Q4, Q5, Q6, Q7, Q8, Q9, Q10, Q11.
  repeat match goal with |- context [cosine_R ?x ?y ?z ?u ?v] => generalize (cosine_R x y z u v); intro end. ring.
Qed.
Lemma Rmean_24 f : Rmean (map f (seq 0 24)) = (Rsum (map f (seq 0 24)) / 24)%R.
Proof. unfold Rmean. rewrite map_length, seq_length, INR_IZR_INZ. reflexivity. Qed.

(** the 24 rows of day i of a plain array *)
Definition array_day (l : list xr) (i : nat) : list xr := firstn 24 (skipn (24 * i) l).
Lemma array_day_map (g : Z -> xr) d0 n i : (i < n)%nat ->
  array_day (map g (hours_index d0 n)) i = map (fun h => g (stamp (d0 + Z.of_nat i) h)) (seq 0 24).
Proof.
  intro Hi. assert (L : (24 * i + 24 <= length (map g (hours_index d0 n)))%nat) by (rewrite map_length, hours_length; lia).
  apply nth_ext with (d := NaN) (d' := NaN).
  - unfold array_day. rewrite firstn_length, skipn_length, (map_length (fun h => g (stamp (d0 + Z.of_nat i) h))), seq_length. lia.
  - intros k Hk. unfold array_day in *. rewrite firstn_length, skipn_length in Hk.
    assert (NS : forall a j (l : list xr), nth j (skipn a l) NaN = nth (a + j) l NaN).
    { clear. intros a. induction a as [|a IH]; intros j l; [reflexivity|]. destruct l as [|x l]; [destruct j; reflexivity|]. apply IH. }
    assert (NF : forall a j (l : list xr), (j < a)%nat -> nth j (firstn a l) NaN = nth j l NaN).
    { clear. intros a. induction a as [|a IH]; intros j l H; [lia|]. destruct l as [|x l]; [reflexivity|]. destruct j as [|j]; [reflexivity|]. cbn. apply IH. lia. }
    rewrite NF, NS by lia. replace (24 * i + k)%nat with (i * 24 + k)%nat by lia. rewrite nth_hours by lia.
    rewrite (nth_map_in (fun h => g (stamp (d0 + Z.of_nat i) h)) (seq 0 24) k O NaN) by (rewrite seq_length; lia). rewrite seq_nth by lia. reflexivity.
Qed.

(** ** C50 *)
Theorem C50_cosine e d0 w a b s draw : w <> [] ->
  exists l, disaggregate_wind e (daily d0 w) "cosine" (Some (Fin a)) (Some (Fin b)) (Some (Fin s)) draw = Ok (WArray l, 0%nat) /\
    length l = (24 * length w)%nat /\
    forall i v, nth_error w i = Some (Fin v) ->
      exists q, array_day l i = map Fin q /\ length q = 24%nat /\ (Rmean q = b * v)%R /\
        (forall h, (h < 24)%nat -> nth h q 0%R = (a * v * cos (PI * (INR h - s) / 12) + b * v)%R) /\
        ((Rabs a <= b)%R -> (0 <= v)%R -> Forall (fun x => (0 <= x)%R) q).
Proof.
  intro NE. eexists. split.
  { unfold disaggregate_wind. cbn [existsb String.eqb Ascii.eqb Bool.eqb orb negb]. rewrite (distribute_xr e d0 w NE). cbn [bind]. rewrite map_map. cbn [fst snd]. reflexivity. }
  split; [rewrite map_length, hours_length; lia|]. intros i v E. assert (Hi : (i < length w)%nat) by (apply nth_error_Some; congruence).
  exists (map (fun h => cosine_R v (IZR (Z.of_nat h)) a b s) (seq 0 24)). split; [|split; [|split; [|split]]].
  - rewrite array_day_map by exact Hi. rewrite map_map. apply map_ext_in. intros h Hh. apply in_seq in Hh. rewrite at_day_stamp, stamp_hour by lia. rewrite (nth_error_nth w i NaN E). apply cosine1_Fin.
  - rewrite map_length. apply seq_length.
  - rewrite Rmean_24, cosine_sum. field.
  - intros h Hh. rewrite (nth_map_in _ (seq 0 24) h O 0%R) by (rewrite seq_length; exact Hh). rewrite seq_nth by exact Hh. cbn [Nat.add]. unfold cosine_R. rewrite INR_IZR_INZ. reflexivity.
  - intros HA HV. apply Forall_forall. intros x Hx. apply in_map_iff in Hx as (h & <- & _). unfold cosine_R. set (c := cos _). pose proof (COS_bound (PI * (IZR (Z.of_nat h) - s) / 12)) as [B1 B2]. fold c in B1, B2.
    assert (K : (- b <= a * c)%R). { unfold Rabs in HA. destruct (Rcase_abs a); nra. }
    replace (a * v * c + b * v)%R with (v * (a * c + b))%R by ring. apply Rmult_le_pos; lra.
Qed.
Print Assumptions C50_cosine.
(** 'equal' repeats the daily mean, keeps the dates and needs no parameters *)
Theorem C50_equal e d0 w a b s draw : w <> [] ->
  exists out, disaggregate_wind e (daily d0 w) "equal" a b s draw = Ok (WSeries out, 0%nat) /\ map fst out = hours_index d0 (length w) /\
    forall i, (i < length w)%nat -> values_on (d0 + Z.of_nat i) out = repeat (nth i w NaN) 24.
Proof.
  intro NE. eexists. split.
  { unfold disaggregate_wind. cbn [existsb String.eqb Ascii.eqb Bool.eqb orb negb]. rewrite (distribute_xr e d0 w NE). reflexivity. }
  split; [apply fst_series|]. intros i Hi. rewrite values_on_map_hours by exact Hi.
  rewrite (map_ext_in _ (fun _ => nth i w NaN)); [reflexivity|]. intros h Hh. apply in_seq in Hh. apply at_day_stamp. lia.
Qed.
Print Assumptions C50_equal.
(** refused calls: unknown method, missing parameter *)
Theorem C50_refused e d0 w a b s draw : w <> [] ->
  (forall m, m <> "equal" -> m <> "cosine" -> m <> "random" -> disaggregate_wind e (daily d0 w) m a b s draw = Err AssertionError) /\
  (a = None \/ b = None \/ s = None -> disaggregate_wind e (daily d0 w) "cosine" a b s draw = Err AssertionError).
Proof.
  intro NE. split.
  - intros m H1 H2 H3. unfold disaggregate_wind. cbn [existsb]. apply String.eqb_neq in H1, H2, H3. rewrite H1, H2, H3. reflexivity.
  - intro H. unfold disaggregate_wind. cbn [existsb String.eqb Ascii.eqb Bool.eqb orb negb]. rewrite (distribute_xr e d0 w NE). cbn [bind].
    destruct a, b, s; try reflexivity. destruct H as [H|[H|H]]; discriminate.
Qed.
Print Assumptions C50_refused.
Example C50_example : exists l, disaggregate_wind modern (daily 19000 [Fin 4; NaN; Fin 2]) "cosine" (Some (Fin (1 / 2))) (Some (Fin 1)) (Some (Fin 3)) (fun _ => NaN) = Ok (WArray l, 0%nat) /\
  exists q, array_day l 0 = map Fin q /\ nth 3 q 0%R = 6%R /\ Rmean q = 4%R /\ Forall (fun x => (0 <= x)%R) q.
Proof.
  destruct (C50_cosine modern 19000 [Fin 4; NaN; Fin 2] (1 / 2) 1 3 (fun _ => NaN)) as (l & E & _ & H); [discriminate|]. exists l. split; [exact E|].
  destruct (H 0%nat 4%R eq_refl) as (q & A & _ & B & C & D). exists q. split; [exact A|]. split.
  - rewrite C by lia. replace (PI * (INR 3 - 3) / 12)%R with 0%R by (cbn; field). rewrite cos_0. lra.
  - split; [lra|]. apply D; [rewrite Rabs_right; lra|lra].
Qed.

(** ** C51 *)
Lemma random_factor u : (0 < u < 1)%R -> exists f, xpow (- xln (Fin u))%num (lit 3 1) = Fin f /\ (0 < f)%R /\ f = Rpower (- ln u) 0.3.
Proof.
  intros [H0 H1]. rewrite xln_Fin by exact H0. pose proof (ln_increasing u 1 H0 H1) as L. rewrite ln_1 in L. rewrite lit_xr by lia. change (10 ^ 1) with 10.
  change (- Fin (ln u))%num with (Fin (- ln u)). exists (Rpower (- ln u) 0.3).
  assert (E : (3 / 10 = 0.3)%R) by lra. rewrite E. split; [|split; [apply exp_pos|reflexivity]].
  cbn [xpow]. destruct (Reqb_spec 0.3 0); [lra|]. destruct (Rltb_spec 0 (- ln u)); [reflexivity|lra].
Qed.

Lemma zero_factor : xpow (- xln (Fin 0))%num (lit 3 1) = PInf.
Proof.
  rewrite lit_xr by lia. change (10 ^ 1) with 10. assert (E : xln (Fin 0) = NInf) by (unfold xln; destruct (Rltb_spec 0 0); [lra|]; destruct (Reqb_spec 0 0); [reflexivity|lra]).
  rewrite E. change (- NInf)%num with PInf. cbn [xpow]. destruct (Reqb_spec (3 / 10) 0); [lra|]. destruct (Rltb_spec 0 (3 / 10)); [reflexivity|lra].
Qed.
Lemma random_result e d0 w a b s draw : w <> [] ->
  disaggregate_wind e (daily d0 w) "random" a b s draw =
  Ok (WSeries (combine (hours_index d0 (length w))
        (map (fun k => (at_day d0 w NaN (nth k (hours_index d0 (length w)) 0) * xpow (- xln (draw k)) (lit 3 1))%num) (seq 0 (24 * length w)))), (24 * length w)%nat).
Proof.
  intro NE. unfold disaggregate_wind. cbn [existsb String.eqb Ascii.eqb Bool.eqb orb negb]. rewrite (distribute_xr e d0 w NE). cbn [bind].
  rewrite map_length, hours_length. replace (length w * 24)%nat with (24 * length w)%nat by lia. do 3 f_equal.
  assert (L : length (hours_index d0 (length w)) = (24 * length w)%nat) by (rewrite hours_length; lia). revert L. generalize (hours_index d0 (length w)), (24 * length w)%nat. intros l n L.
  set (F := fun k t => (at_day d0 w NaN t * xpow (- xln (draw k)) (lit 3 1))%num). change (fun k => (at_day d0 w NaN (nth k l 0) * xpow (- xln (draw k)) (lit 3 1))%num) with (fun k => F k (nth k l 0)).
  change (fun q : Z * xr * nat => (fst (fst q), (snd (fst q) * xpow (- xln (draw (snd q))) (lit 3 1))%num)) with (fun q : Z * xr * nat => (fst (fst q), (snd (fst q) * xpow (- xln (draw (snd q))) (lit 3 1))%num)).
  assert (G : forall k, map (fun q : Z * xr * nat => (fst (fst q), (snd (fst q) * xpow (- xln (draw (snd q))) (lit 3 1))%num)) (combine (map (fun t => (t, at_day d0 w NaN t)) l) (seq k n))
                        = combine l (map (fun j => F j (nth (j - k) l 0)) (seq k n))).
  { revert n L. induction l as [|t l IH]; intros [|n] L k; cbn in L; try discriminate; [reflexivity|]. cbn [map combine seq fst snd]. rewrite (IH n) by lia. rewrite Nat.sub_diag. cbn [nth]. f_equal.
    f_equal. apply map_ext_in. intros j Hj. apply in_seq in Hj. replace (j - k)%nat with (S (j - S k)) by lia. reflexivity. }
  rewrite (G 0%nat). f_equal. apply map_ext. intro k. rewrite Nat.sub_0_r. reflexivity.
Qed.
Lemma values_on_combine (v : nat -> xr) d0 n i : (i < n)%nat ->
  values_on (d0 + Z.of_nat i) (combine (hours_index d0 n) (map v (seq 0 (24 * n)))) = map (fun h => v (24 * i + h)%nat) (seq 0 24).
Proof.
  intro Hi. assert (E : combine (hours_index d0 n) (map v (seq 0 (24 * n))) = map (fun t => (t, v (Z.to_nat ((t - d0 * us_day) / us_hour)))) (hours_index d0 n)).
  { unfold hours_index, grid. rewrite map_map. rewrite combine_maps. apply map_ext. intro k. do 2 f_equal. replace (d0 * us_day + Z.of_nat k * us_hour - d0 * us_day) with (Z.of_nat k * us_hour) by ring. rewrite Z.div_mul by discriminate. lia. }
  rewrite E. rewrite (values_on_map_hours (fun t => v (Z.to_nat ((t - d0 * us_day) / us_hour))) d0 n i Hi). apply map_ext_in. intros h Hh. apply in_seq in Hh. f_equal.
  unfold stamp. replace ((d0 + Z.of_nat i) * us_day + Z.of_nat h * us_hour - d0 * us_day) with ((24 * Z.of_nat i + Z.of_nat h) * us_hour) by (unfold us_day, us_hour; lia). rewrite Z.div_mul by discriminate. lia.
Qed.
(** hour h of day i uses draw 24*i+h: the value is the daily mean times (-ln u)^0.3 *)
Theorem C51_random e d0 w a b s draw : w <> [] ->
  exists out, disaggregate_wind e (daily d0 w) "random" a b s draw = Ok (WSeries out, (24 * length w)%nat) /\ map fst out = hours_index d0 (length w) /\
    forall i h v, (h < 24)%nat -> nth_error w i = Some (Fin v) ->
      let x := nth h (values_on (d0 + Z.of_nat i) out) NaN in
      (forall u, draw (24 * i + h)%nat = Fin u -> (0 < u < 1)%R -> x = Fin (v * Rpower (- ln u) 0.3) /\ ((0 <= v)%R -> (0 <= v * Rpower (- ln u) 0.3)%R)) /\
      (draw (24 * i + h)%nat = Fin 0 -> (0 < v)%R -> x = PInf) /\
      (draw (24 * i + h)%nat = Fin 0 -> (v = 0)%R -> x = NaN).
Proof.
  intro NE. rewrite random_result by exact NE. eexists. split; [reflexivity|]. split; [apply combine_fst; rewrite map_length, seq_length, hours_length; lia|].
  intros i h v Hh E x. assert (Hi : (i < length w)%nat) by (apply nth_error_Some; congruence).
  assert (EX : x = (Fin v * xpow (- xln (draw (24 * i + h)%nat)) (lit 3 1))%num).
  { unfold x. rewrite (values_on_combine (fun k => (at_day d0 w NaN (nth k (hours_index d0 (length w)) 0) * xpow (- xln (draw k)) (lit 3 1))%num) d0 (length w) i Hi).
    rewrite (nth_map_in _ (seq 0 24) h O NaN) by (rewrite seq_length; exact Hh). rewrite seq_nth by exact Hh. cbn [Nat.add]. f_equal.
    assert (EN : nth (24 * i + h) (hours_index d0 (length w)) 0 = stamp (d0 + Z.of_nat i) h).
    { unfold hours_index. rewrite grid_nth by lia. unfold stamp, us_day, us_hour. lia. }
    rewrite EN, at_day_stamp by exact Hh. apply nth_error_nth, E. }
  clearbody x. subst x. split; [|split].
  - intros u EU HU. rewrite EU. destruct (random_factor u HU) as (f & EF & HF & ->). rewrite EF, xmul_Fin. split; [reflexivity|]. intro HV. apply Rmult_le_pos; lra.
  - intros -> HV. rewrite zero_factor. cbn. destruct (Reqb_spec v 0); [lra|]. destruct (Rltb_spec 0 v); [reflexivity|lra].
  - intros -> ->. rewrite zero_factor. cbn. destruct (Reqb_spec 0 0); [reflexivity|lra].
Qed.
Print Assumptions C51_random.
(** the daily mean is not preserved: equal draws below 1/e make every hour windier than the daily mean *)
Theorem C51_mean_refuted : exists d0 w draw out l,
  (forall k, exists u, draw k = Fin u /\ (0 < u < 1)%R) /\
  disaggregate_wind modern (daily d0 w) "random" None None None draw = Ok (WSeries out, (24 * length w)%nat) /\
  nth_error w 0 = Some (Fin 1) /\ values_on (d0 + Z.of_nat 0) out = map Fin l /\ Rmean l <> 1%R.
Proof.
  destruct (C51_random modern 19000 [Fin 1] None None None (fun _ => Fin (exp (-2)))) as (out & E & EI & H); [discriminate|].
  assert (HU : (0 < exp (-2) < 1)%R) by (split; [apply exp_pos|rewrite <- exp_0; apply exp_increasing; lra]).
  assert (P : Rpower (- ln (exp (-2))) 0.3 = Rpower 2 0.3) by (rewrite ln_exp; f_equal; lra).
  assert (V : values_on (19000 + Z.of_nat 0) out = map Fin (repeat (Rpower 2 0.3) 24)).
  { apply nth_ext with (d := NaN) (d' := NaN).
    - assert (LV : length (values_on (19000 + Z.of_nat 0) out) = 24%nat).
      { rewrite (series_as_map out _ EI (hours_nodup _ _)). rewrite values_on_map_hours by (cbn; lia). rewrite map_length. reflexivity. }
      rewrite LV. reflexivity.
    - intros k Hk. rewrite (series_as_map out _ EI (hours_nodup _ _)) in Hk. rewrite values_on_map_hours, map_length, seq_length in Hk by (cbn; lia).
      destruct (H 0%nat k 1%R Hk eq_refl) as [K _]. destruct (K _ eq_refl HU) as [K' _]. rewrite K', P. rewrite (nth_map_in Fin (repeat (Rpower 2 0.3) 24) k 0%R NaN) by (rewrite repeat_length; exact Hk).
      f_equal. rewrite Rmult_1_l. symmetry. apply (repeat_spec 24). apply nth_In. rewrite repeat_length. exact Hk. }
  exists 19000, [Fin 1], (fun _ => Fin (exp (-2))), out, (repeat (Rpower 2 0.3) 24).
  split; [intros _; exists (exp (-2)); split; [reflexivity|exact HU]|]. split; [exact E|]. split; [reflexivity|]. split; [exact V|].
  assert (G : (1 < Rpower 2 0.3)%R) by (rewrite <- (Rpower_O 2) by lra; apply Rpower_lt; lra).
  unfold Rmean. cbn [Rsum fold_right repeat length]. rewrite INR_IZR_INZ. cbn [Z.of_nat Pos.of_succ_nat Pos.succ]. lra.
Qed.
Print Assumptions C51_mean_refuted.
Example C51_example : exists out, disaggregate_wind modern (daily 19000 [Fin 3; Fin 0]) "random" None None None (fun k => if Nat.eqb k 5 then Fin 0 else if Nat.eqb k 30 then Fin 0 else Fin (exp (-1))) = Ok (WSeries out, 48%nat) /\
  nth 4 (values_on (19000 + Z.of_nat 0) out) NaN = Fin 3 /\ nth 5 (values_on (19000 + Z.of_nat 0) out) NaN = PInf /\ nth 6 (values_on (19000 + Z.of_nat 1) out) NaN = NaN.
Proof.
  set (draw := fun k => if Nat.eqb k 5 then Fin 0 else if Nat.eqb k 30 then Fin 0 else Fin (exp (-1))).
  destruct (C51_random modern 19000 [Fin 3; Fin 0] None None None draw) as (out & E & _ & H); [discriminate|]. exists out. split; [exact E|]. split; [|split].
  - destruct (H 0%nat 4%nat 3%R ltac:(lia) eq_refl) as [K _]. destruct (K (exp (-1)) eq_refl) as [K' _]; [split; [apply exp_pos|rewrite <- exp_0; apply exp_increasing; lra]|].
    rewrite K', ln_exp. f_equal. replace (- (-1))%R with 1%R by lra. unfold Rpower. rewrite ln_1, Rmult_0_r, exp_0. lra.
  - apply (H 0%nat 5%nat 3%R ltac:(lia) eq_refl); [reflexivity|lra].
  - apply (H 1%nat 6%nat 0%R ltac:(lia) eq_refl); reflexivity.
Qed.

(** ** C78: fitting data that follow the cosine law *)
(** the squared residual of a row under given parameters *)
Definition residual (a b s : R) (r : xr * Z * xr) : R :=
  match r with (Fin w, h, Fin v) => (cosine_R w (IZR h) a b s - v)%R | _ => 1%R end.
(** if each day's hourly values are the cosine law applied to some number c_i, with b<>0, the rows handed to the fit
    are reproduced without error by amplitude a/b, offset 1 and the same phase *)
Theorem C78_exact_fit d0 (c : list R) (a b s : R) : b <> 0%R ->
  let out := map (fun t => (t, Fin (cosine_R (nth (Z.to_nat (date_of t - d0)) c 0%R) (IZR (hour_of t)) a b s))) (hours_index d0 (length c)) in
  length (cosine_rows out) = (24 * length c)%nat /\
  forall r, In r (cosine_rows out) -> residual (a / b) 1 s r = 0%R.
Proof.
  intros HB out.
  assert (V : forall i, (i < length c)%nat -> values_on (d0 + Z.of_nat i) out = map Fin (map (fun h => cosine_R (nth i c 0%R) (IZR (Z.of_nat h)) a b s) (seq 0 24))).
  { intros i Hi. unfold out. rewrite (values_on_map_hours (fun t => Fin (cosine_R (nth (Z.to_nat (date_of t - d0)) c 0%R) (IZR (hour_of t)) a b s)) d0 (length c) i Hi), map_map. apply map_ext_in. intros h Hh. apply in_seq in Hh.
    rewrite stamp_date, stamp_hour by lia. do 4 f_equal. lia. }
  assert (M : forall i, (i < length c)%nat -> nanmean (values_on (d0 + Z.of_nat i) out) = Fin (b * nth i c 0%R)).
  { intros i Hi. rewrite (V i Hi), nanmean_numeric; [|apply numeric_Fin|rewrite fins_Fin; discriminate]. rewrite fins_Fin, Rmean_24, cosine_sum. f_equal. field. }
  assert (R : cosine_rows out = map (fun t => (Fin (b * nth (Z.to_nat (date_of t - d0)) c 0%R), hour_of t, Fin (cosine_R (nth (Z.to_nat (date_of t - d0)) c 0%R) (IZR (hour_of t)) a b s))) (hours_index d0 (length c))).
  { unfold cosine_rows. assert (K : forall l, (forall t, In t l -> In t (hours_index d0 (length c))) ->
      flat_map (fun p => if n_isnan (nanmean (map snd (filter (fun q => date_of (fst q) =? date_of (fst p)) out))) || n_isnan (snd p) then []
                         else [(nanmean (map snd (filter (fun q => date_of (fst q) =? date_of (fst p)) out)), hour_of (fst p), snd p)])
        (map (fun t => (t, Fin (cosine_R (nth (Z.to_nat (date_of t - d0)) c 0%R) (IZR (hour_of t)) a b s))) l)
      = map (fun t => (Fin (b * nth (Z.to_nat (date_of t - d0)) c 0%R), hour_of t, Fin (cosine_R (nth (Z.to_nat (date_of t - d0)) c 0%R) (IZR (hour_of t)) a b s))) l).
    { induction l as [|t l IH]; intro HL; [reflexivity|]. cbn [map flat_map fst snd].
      assert (exists i h, (i < length c)%nat /\ (h < 24)%nat /\ t = stamp (d0 + Z.of_nat i) h) as (i & h & Hi & Hh & ->).
      { specialize (HL t (or_introl eq_refl)). unfold hours_index in HL. apply grid_In in HL as (k & Hk & ->). exists (k / 24)%nat, (k mod 24)%nat. split; [apply Nat.div_lt_upper_bound; lia|]. split; [apply Nat.mod_upper_bound; lia|].
        unfold stamp, us_day, us_hour. pose proof (Nat.div_mod k 24 ltac:(lia)). lia. }
      rewrite (IH (fun u Hu => HL u (or_intror Hu))). rewrite stamp_date, stamp_hour by exact Hh. change (map snd (filter (fun q : Z * xr => date_of (fst q) =? d0 + Z.of_nat i) out)) with (values_on (d0 + Z.of_nat i) out). rewrite (M i Hi).
      cbn [n_isnan Num_xr xisnan orb app]. replace (Z.to_nat (d0 + Z.of_nat i - d0)) with i by lia. reflexivity. }
    unfold out at 2. apply K. intros t Ht. exact Ht. }
  rewrite R. split; [rewrite map_length, hours_length; lia|]. intros r Hr. apply in_map_iff in Hr as (t & <- & _). unfold residual, cosine_R. field. exact HB.
Qed.
Print Assumptions C78_exact_fit.
Example C78_example :
  let out := map (fun t => (t, Fin (cosine_R (nth (Z.to_nat (date_of t - 19000)) [3; 5]%R 0%R) (IZR (hour_of t)) 1 2 14))) (hours_index 19000 2) in
  length (cosine_rows out) = 48%nat /\ exists r, In r (cosine_rows out) /\ residual (1 / 2) 1 14 r = 0%R.
Proof.
  cbv zeta. destruct (C78_exact_fit 19000 [3; 5]%R 1 2 14 ltac:(lra)) as [L H]. cbv zeta in L, H. change (length [3; 5]%R) with 2%nat in *.
  split; [exact L|]. revert L H. generalize (cosine_rows (map (fun t => (t, Fin (cosine_R (nth (Z.to_nat (date_of t - 19000)) [3; 5]%R 0%R) (IZR (hour_of t)) 1 2 14))) (hours_index 19000 2))).
  intros l L H. destruct l as [|r l]; [discriminate|]. exists r. split; [left; reflexivity|apply H; left; reflexivity].
Qed.
