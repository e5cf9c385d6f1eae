(** Error bounds of the sine temperatures and of the cosine wind in binary64. *)
From Coq Require Import String ZArith List Bool Lia Reals Lra Floats.
From Flocq Require Import Core.
From Verif Require Import Py Num Cal Series Trans UtilModel UtilModel2 Frame TempModel WindModel SpecBase SpecUtil TimeProofs IndexProofs DaysProofs
  TempProofs F64 CascadeFloat CascadeRound FiveRound SpecCourseRound CourseRound SpecSineRound SineModel ErrCalc.
Import ListNotations.
Open Scope Z_scope.

(** ** with the true cosine this is the model of the other properties *)
Lemma sine_value_agrees kind modn (r : loc_row) h :
  sine_hour kind modn r h
  = sine_value xcos xpi (match kind with SineMean => true | SineMinMax => false end) modn
      {| r_min_loc := min_loc r; r_max_loc := max_loc r; r_min_cur := min_val_cur r; r_min_next := min_val_next r;
         r_max_before := max_val_before r; r_max_cur := max_val_cur r; r_mean := mean_val_cur r |} h.
Proof.
  unfold sine_hour, sine_value. cbn [r_min_loc r_max_loc r_min_cur r_min_next r_max_before r_max_cur r_mean]. cbv zeta.
  assert (S : forall a b, (n_ofZ a - n_ofZ b)%num = (n_ofZ (a - b) : xr)) by (intros a b; rewrite !nofZ_xr, xsub_Fin, minus_IZR; reflexivity).
  assert (P : forall a b, (n_ofZ a + n_ofZ b)%num = (n_ofZ (a + b) : xr)) by (intros a b; rewrite !nofZ_xr, xadd_Fin, plus_IZR; reflexivity).
  destruct kind; [|rewrite S; reflexivity].
  destruct modn; [|rewrite S; reflexivity].
  rewrite !S, !P. reflexivity.
Qed.
Lemma sine_model_agrees e (d : dframe xr) method mmt modn md mc st :
  (method = "sine_min_max" \/ method = "sine_mean" \/ method = "sine")%string ->
  disaggregate_temperature e d method mmt modn md mc (Some st)
  = (let* hours := hourly_index e (f_index d) in
     let* locs := locations (f_index d) mmt md (Some st) in
     let* mins := mapM to_int (fst locs) in
     let* maxs := mapM to_int (snd locs) in
     let* out := temp_sine xcos xpi e d (String.eqb method "sine_mean") modn mins maxs in
     let* _ := polar_branch e st hours in Ok out).
Proof.
  intro HM. unfold disaggregate_temperature.
  replace (String.eqb method "sine_min_max" || String.eqb method "sine_mean" || String.eqb method "sine")%bool with true
    by (destruct HM as [-> |[-> | ->]]; reflexivity).
  cbn [negb orb]. unfold temp_sine.
  destruct (hourly_index e (f_index d)) as [hours|]; [|reflexivity]. cbn [bind].
  destruct (locations (f_index d) mmt md (Some st)) as [locs|]; [|reflexivity]. cbn [bind].
  destruct (mapM to_int (fst locs)) as [mins|]; [|reflexivity]. cbn [bind].
  destruct (mapM to_int (snd locs)) as [maxs|]; [|reflexivity]. cbn [bind].
  destruct (fcol "tmin" d) as [tmin|]; [|reflexivity]. cbn [bind].
  destruct (fcol "tmax" d) as [tmax|]; [|reflexivity]. cbn [bind].
  destruct (fcol "temp" d) as [temp|]; [|reflexivity]. cbn [bind].
  destruct (has_dup (f_index d) || negb (is_increasing (f_index d)))%bool; [reflexivity|]. cbn [bind].
  destruct (polar_branch e st hours); [|reflexivity]. cbn [bind]. f_equal.
  set (g := fun r : loc_row => {| r_min_loc := min_loc r; r_max_loc := max_loc r; r_min_cur := min_val_cur r; r_min_next := min_val_next r;
         r_max_before := max_val_before r; r_max_cur := max_val_cur r; r_mean := mean_val_cur r |}).
  assert (ER : sine_rows (f_index d) mins maxs tmin tmax temp = map (fun p => (fst p, g (snd p))) (loc_rows (f_index d) mins maxs tmin tmax temp)).
  { unfold sine_rows, loc_rows. rewrite map_map. apply map_ext. intros [[t mn] mx]. cbn [fst snd]. unfold g, value_at, label_shift. cbn.
    replace (t - -1 * us_day) with (t + us_day) by lia. replace (t - 1 * us_day) with (t - us_day) by lia. reflexivity. }
  rewrite ER. apply (f_equal (@Ok (series xr))). apply map_ext. intro t. f_equal.
  assert (EL : forall rows acc, last_le t (map (fun p => (fst p, g (snd p))) rows) (option_map g acc) = option_map g (last_le t rows acc)).
  { induction rows as [|[u r] rows IH]; intro acc; [reflexivity|]. cbn [map last_le fst snd].
    destruct (u <=? t); [exact (IH (Some r))|reflexivity]. }
  specialize (EL (loc_rows (f_index d) mins maxs tmin tmax temp) None). cbn [option_map] in EL. rewrite EL.
  destruct (last_le t (loc_rows (f_index d) mins maxs tmin tmax temp) None) as [r|]; [|reflexivity]. cbn [option_map].
  rewrite sine_value_agrees. destruct HM as [-> |[-> | ->]]; reflexivity.
Qed.
Lemma wind_model_agrees e (w : series xr) a b s draw :
  disaggregate_wind e w "cosine" (Some a) (Some b) (Some s) draw
  = (let* l := wind_cosine xcos xpi e w a b s in Ok (WArray l, 0%nat)).
Proof. unfold disaggregate_wind, wind_cosine. cbn [existsb String.eqb Ascii.eqb Bool.eqb orb negb]. destruct (distribute_equally e w false); reflexivity. Qed.

(** ** the days, for any kind of number *)
Section Shape.
  Context {T : Type} {N : Num T}.
  Variable cosf : T -> T.
  Variable pi : T.
  Definition the_row (mins maxs : list Z) (tmin tmax temp : list T) (i : nat) : sine_row :=
    {| r_min_loc := nth i mins 0; r_max_loc := nth i maxs 0;
       r_min_cur := nth i tmin n_nan; r_min_next := next_or_own n_nan tmin i;
       r_max_before := prev_or_own n_nan tmax i; r_max_cur := nth i tmax n_nan; r_mean := nth i temp n_nan |}.
  Lemma value_at_daily d0 (l : list T) i : (i < length l)%nat -> value_at (daily d0 l) ((d0 + Z.of_nat i) * us_day) = nth i l n_nan.
  Proof. intro H. unfold value_at. rewrite lookup_daily, (nth_error_nth' l i n_nan H). reflexivity. Qed.
  Lemma sine_rows_daily d0 mins maxs tmin tmax temp : temp <> [] ->
    length tmin = length temp -> length tmax = length temp -> length mins = length temp -> length maxs = length temp ->
    sine_rows (daily_index d0 (length temp)) mins maxs (daily d0 tmin) (daily d0 tmax) (daily d0 temp)
    = daily d0 (map (the_row mins maxs tmin tmax temp) (seq 0 (length temp))).
  Proof.
    intros NE L1 L2 L3 L4. set (n := length temp) in *.
    assert (PN : (0 < n)%nat) by (destruct temp; [contradiction|cbn in n; unfold n; lia]).
    assert (LI : length (daily_index d0 n) = n) by apply grid_length.
    rewrite daily_seq. unfold sine_rows.
    rewrite (combine_seq (daily_index d0 n) mins 0 0 n LI L3).
    rewrite (combine_seq _ maxs (0, 0) 0 n); [|rewrite map_length, seq_length; reflexivity|exact L4]. rewrite map_map.
    apply map_ext_in. intros i Hi. apply in_seq in Hi.
    rewrite (nth_map_seq (fun i => (nth i (daily_index d0 n) 0, nth i mins 0)) 0 n i (0, 0)) by lia. cbn [Nat.add].
    assert (EI : nth i (daily_index d0 n) 0 = (d0 + Z.of_nat i) * us_day) by (unfold daily_index; rewrite grid_nth by lia; lia).
    rewrite EI.
    assert (EL : last (daily_index d0 n) 0 = (d0 + Z.of_nat (n - 1)) * us_day).
    { unfold daily_index. replace n with (n - 1 + 1)%nat at 1 by lia. rewrite grid_app. cbn. rewrite last_last. lia. }
    assert (EH : hd 0 (daily_index d0 n) = d0 * us_day) by (destruct n; [lia|]; rewrite daily_index_S; reflexivity).
    rewrite EL, EH. f_equal. unfold the_row.
    rewrite !(value_at_daily d0) by lia. f_equal.
    - unfold next_or_own. rewrite L1. destruct (Nat.eqb_spec (S i) n) as [E|E].
      + replace (n - 1)%nat with i by lia. rewrite Z.eqb_refl. reflexivity.
      + destruct (Z.eqb_spec ((d0 + Z.of_nat i) * us_day) ((d0 + Z.of_nat (n - 1)) * us_day)) as [Q|Q]; [unfold us_day in Q; lia|].
        replace ((d0 + Z.of_nat i) * us_day + us_day) with ((d0 + Z.of_nat (S i)) * us_day) by lia. apply value_at_daily. lia.
    - unfold prev_or_own. destruct i as [|j].
      + destruct (Z.eqb_spec ((d0 + Z.of_nat 0) * us_day) (d0 * us_day)) as [Q|Q]; [reflexivity|exfalso; apply Q; f_equal; lia].
      + destruct (Z.eqb_spec ((d0 + Z.of_nat (S j)) * us_day) (d0 * us_day)) as [Q|Q]; [unfold us_day in Q; lia|].
        replace ((d0 + Z.of_nat (S j)) * us_day - us_day) with ((d0 + Z.of_nat j) * us_day) by lia.
        replace (S j - 1)%nat with j by lia. apply value_at_daily. lia.
  Qed.
  Lemma temp_sine_days e (d : dframe T) d0 tmin tmax temp use_mean modn mins maxs : temp <> [] ->
    f_index d = daily_index d0 (length temp) -> length tmin = length temp -> length tmax = length temp ->
    assoc "tmin" (f_cols d) = Some tmin -> assoc "tmax" (f_cols d) = Some tmax -> assoc "temp" (f_cols d) = Some temp ->
    length mins = length temp -> length maxs = length temp ->
    exists out, temp_sine cosf pi e d use_mean modn mins maxs = Ok out /\
      map fst out = hours_index d0 (length temp) /\
      forall i, (i < length temp)%nat ->
        values_on (d0 + Z.of_nat i) out
        = map (fun h => sine_value cosf pi use_mean modn (the_row mins maxs tmin tmax temp i) (Z.of_nat h)) (seq 0 24).
  Proof.
    intros NE FI L1 L2 C1 C2 C3 L3 L4. set (rows := map (the_row mins maxs tmin tmax temp) (seq 0 (length temp))).
    exists (map (fun t => (t, match last_le t (daily d0 rows) None with
                              | Some r => sine_value cosf pi use_mean modn r (hour_of t)
                              | None => n_nan end)) (hours_index d0 (length temp))).
    split; [|split].
    - unfold temp_sine. rewrite FI. assert (HI : hourly_index e (daily_index d0 (length temp)) = Ok (hours_index d0 (length temp))).
      { destruct temp; [contradiction|]. apply hourly_index_daily. }
      rewrite HI. cbn [bind]. unfold fcol. rewrite C1, C2, C3. cbn [bind].
      rewrite daily_has_dup. unfold daily_index at 1. rewrite grid_increasing by (unfold us_day; lia). cbn [orb negb]. rewrite FI.
      replace (combine (daily_index d0 (length temp)) tmin) with (daily d0 tmin) by (unfold daily; rewrite L1; reflexivity).
      replace (combine (daily_index d0 (length temp)) tmax) with (daily d0 tmax) by (unfold daily; rewrite L2; reflexivity).
      fold (daily d0 temp). rewrite sine_rows_daily by assumption. reflexivity.
    - rewrite map_map. apply map_id.
    - intros i Hi.
      rewrite (values_on_map_hours (fun t => match last_le t (daily d0 rows) None with
                              | Some r => sine_value cosf pi use_mean modn r (hour_of t)
                              | None => n_nan end)) by exact Hi.
      apply map_ext_in. intros h Hh. apply in_seq in Hh.
      assert (LR : length rows = length temp) by (unfold rows; rewrite map_length, seq_length; reflexivity).
      rewrite last_le_daily by lia. rewrite (nth_error_nth' rows i (the_row mins maxs tmin tmax temp 0)) by lia. unfold rows.
      rewrite (map_nth (the_row mins maxs tmin tmax temp)), seq_nth by lia. rewrite stamp_hour by lia. reflexivity.
  Qed.
End Shape.

(** ** cosines *)
Open Scope R_scope.
Lemma abs_sin_le x : Rabs (sin x) <= Rabs x.
Proof.
  destruct (Rtotal_order x 0) as [H|[H|H]].
  - pose proof (SIN_bound (- x)) as SB. pose proof (sin_lt_x (- x) ltac:(lra)) as K. rewrite sin_neg in K, SB. rewrite (Rabs_left x) by lra.
    destruct (Rle_lt_dec (-x) 1) as [L|L].
    + pose proof (sin_gt_0 (- x) ltac:(lra)) as P. rewrite sin_neg in P. pose proof PI2_1. specialize (P ltac:(lra)). rewrite Rabs_left; lra.
    + apply Rabs_le. lra.
  - subst. rewrite sin_0, Rabs_R0. lra.
  - pose proof (SIN_bound x) as SB. pose proof (sin_lt_x x H) as K. rewrite (Rabs_pos_eq x) by lra.
    destruct (Rle_lt_dec x 1) as [L|L].
    + pose proof (sin_gt_0 x H) as P. pose proof PI2_1. specialize (P ltac:(lra)). rewrite Rabs_pos_eq; lra.
    + apply Rabs_le. lra.
Qed.
Lemma cos_lipschitz a b : Rabs (cos a - cos b) <= Rabs (a - b).
Proof.
  rewrite form2, !Rabs_mult. rewrite (Rabs_left (-2)) by lra. pose proof (abs_sin_le ((a - b) / 2)) as S1.
  assert (S2 : Rabs (sin ((a + b) / 2)) <= 1) by (apply Rabs_le, SIN_bound).
  replace (Rabs ((a - b) / 2)) with (Rabs (a - b) / 2) in S1.
  2:{ unfold Rdiv. rewrite Rabs_mult. rewrite (Rabs_pos_eq (/ 2)) by lra. reflexivity. }
  pose proof (Rabs_pos (sin ((a - b) / 2))). pose proof (Rabs_pos (sin ((a + b) / 2))). pose proof (Rabs_pos (a - b)).
  apply Rle_trans with (2 * Rabs (sin ((a - b) / 2)) * 1); [|lra]. replace (- -2) with 2 by ring.
  apply Rmult_le_compat_l; lra.
Qed.
Lemma app_cos cosf x r e : good_cosine cosf -> app x r e -> Rabs r <= 999 -> e <= 1 ->
  app (cosf x) (cos r) (1 / 10 ^ 15 + e) /\ Rabs (fval (cosf x)) <= 1.
Proof.
  intros G A HR HE. pose proof (app_bound _ _ _ _ A HR) as B. destruct A as [F E].
  destruct (G x) as (FC & C1 & CE); [apply ffin_spec; exact F|lra|].
  split; [|exact C1]. split; [apply ffin_spec; exact FC|].
  replace (fval (cosf x) - cos r) with ((fval (cosf x) - cos (fval x)) + (cos (fval x) - cos r)) by ring.
  eapply Rle_trans; [apply Rabs_triang|]. pose proof (cos_lipschitz (fval x) r). lra.
Qed.

(** ** angles *)
Lemma eta_tiny : 0 < eta64 < 1 / 10 ^ 30.
Proof. pose proof eta64_pos. pose proof eta_u. unfold u64 in *. lra. Qed.
Lemma app_pi : app np_pi PI (2 / 10 ^ 16).
Proof. split; [reflexivity|exact PI_close]. Qed.
Lemma PI_bounds : 0 < PI <= 4.
Proof. split; [apply PI_RGT_0|apply PI_4]. Qed.
Lemma abs_IZR_le z k : (Z.abs z <= k)%Z -> Rabs (IZR z) <= IZR k.
Proof. intro H. rewrite <- abs_IZR. apply IZR_le, H. Qed.
(** [q * j] for an approximate [q] of size at most 4 and an integer of size at most 80 *)
Lemma app_times q r j : app q r (7 / 10 ^ 16) -> Rabs r <= 4 -> (Z.abs j <= 80)%Z ->
  app (q * n_ofZ j)%float (r * IZR j) (93 / 10 ^ 15).
Proof.
  intros A HR HJ. pose proof cap_1 as C. pose proof eta_tiny as E.
  eapply app_weaken; [eapply (app_mul _ _ _ _ _ _ 4 80); [exact A|apply app_ofZ; lia|exact HR|apply (abs_IZR_le j 80 HJ)|lra]|].
  unfold u64. lra.
Qed.
Lemma app_over k : (Z.abs k <= 100)%Z -> k <> 0%Z -> app (np_pi / n_ofZ k)%float (PI / IZR k) (7 / 10 ^ 16) /\ Rabs (PI / IZR k) <= 4.
Proof.
  intros HK NZ. pose proof cap_1 as C. pose proof eta_tiny as E. pose proof PI_bounds as P.
  destruct (ofZ_val k) as [_ V]; [lia|].
  assert (K1 : 1 <= Rabs (IZR k)) by (rewrite <- abs_IZR; apply IZR_le; lia).
  split.
  - rewrite <- V. eapply app_weaken; [eapply (app_div _ _ _ _ 4 1); [exact app_pi|apply Rabs_le; lra|lra|rewrite V; exact K1|lra]|].
    unfold u64. lra.
  - unfold Rdiv. rewrite Rabs_mult, Rabs_inv, (Rabs_pos_eq PI) by lra.
    assert (/ Rabs (IZR k) <= / 1) by (apply Rinv_le_contravar; lra). assert (0 < / Rabs (IZR k)) by (apply Rinv_0_lt_compat; lra). nra.
Qed.

(** the three kinds of angle *)
Lemma app_day mx h : (Z.abs (h - mx) <= 80)%Z ->
  app (n_ofZ 2 * np_pi / n_ofZ 24 * n_ofZ (h - mx))%float (day_angle mx h) (93 / 10 ^ 15) /\ Rabs (day_angle mx h) <= 320.
Proof.
  intro H. pose proof cap_1 as C. pose proof eta_tiny as E. pose proof PI_bounds as P.
  destruct (ofZ_val 24) as [_ V]; [lia|].
  assert (A : app (n_ofZ 2 * np_pi / n_ofZ 24)%float (PI / 12) (7 / 10 ^ 16)).
  { eapply app_weaken; [eapply app_eq; [eapply (app_div _ _ _ _ 8 24); [eapply (app_mul _ _ _ _ _ _ 2 4); [exact (app_ofZ 2 ltac:(lia))|exact app_pi|rewrite Rabs_pos_eq; lra|rewrite Rabs_pos_eq; lra|lra]
      |rewrite Rabs_pos_eq; lra|lra|rewrite V, Rabs_pos_eq; lra|unfold u64; lra]|rewrite V; field]|unfold u64; lra]. }
  split; [apply app_times; [exact A|rewrite Rabs_pos_eq; lra|exact H]|].
  unfold day_angle. rewrite Rabs_mult, (Rabs_pos_eq (PI / 12)) by lra. pose proof (abs_IZR_le _ _ H). pose proof (Rabs_pos (IZR (h - mx))). nra.
Qed.
Lemma app_night k j : (Z.abs k <= 100)%Z -> k <> 0%Z -> (Z.abs j <= 80)%Z ->
  app (np_pi / n_ofZ k * n_ofZ j)%float (IZR j / IZR k * PI) (93 / 10 ^ 15) /\ Rabs (IZR j / IZR k * PI) <= 320.
Proof.
  intros HK NZ HJ. destruct (app_over k HK NZ) as [A B]. assert (K0 : IZR k <> 0) by (apply IZR_neq; exact NZ).
  replace (IZR j / IZR k * PI) with (PI / IZR k * IZR j) by (field; exact K0).
  split; [apply app_times; assumption|]. rewrite Rabs_mult. pose proof (abs_IZR_le _ _ HJ). pose proof (Rabs_pos (IZR j)). pose proof (Rabs_pos (PI / IZR k)). nra.
Qed.
Lemma lit_125 : ffin (lit 125 2) /\ fval (lit 125 2) = 5 / 4.
Proof. split; [reflexivity|]. unfold fval. vm_compute. lra. Qed.
Lemma lit_75 : ffin (lit 75 2) /\ fval (lit 75 2) = 3 / 4.
Proof. split; [reflexivity|]. unfold fval. vm_compute. lra. Qed.
Lemma app_morning k j : (0 < j < k)%Z -> (k <= 60)%Z ->
  app (lit 125 2 * np_pi + lit 75 2 * np_pi / n_ofZ k * n_ofZ j)%float (5 / 4 * PI + IZR j / IZR k * (3 / 4 * PI)) (93 / 10 ^ 15) /\
  Rabs (5 / 4 * PI + IZR j / IZR k * (3 / 4 * PI)) <= 320.
Proof.
  intros HJ HK. pose proof cap_1 as C. pose proof eta_tiny as E. pose proof PI_bounds as P.
  destruct lit_125 as [F1 V1], lit_75 as [F2 V2]. destruct (ofZ_val k) as [_ V]; [lia|].
  assert (K1 : 1 <= IZR k) by (apply IZR_le; lia). assert (J0 : 0 < IZR j) by (apply IZR_lt; lia). assert (JK : IZR j <= IZR k) by (apply IZR_le; lia).
  assert (Q : 0 < IZR j / IZR k <= 1).
  { split; [apply Rdiv_lt_0_compat; lra|]. apply (Rmult_le_reg_r (IZR k)); [lra|]. unfold Rdiv. rewrite Rmult_assoc, Rinv_l by lra. lra. }
  assert (A1 : app (lit 125 2 * np_pi)%float (5 / 4 * PI) (2 / 10 ^ 15)).
  { eapply app_weaken; [rewrite <- V1; eapply (app_mul _ _ _ _ _ _ (5 / 4) 4); [apply app_exact; exact F1|exact app_pi|rewrite V1, Rabs_pos_eq; lra|rewrite Rabs_pos_eq; lra|lra]|unfold u64; lra]. }
  assert (A2 : app (lit 75 2 * np_pi)%float (3 / 4 * PI) (5 / 10 ^ 16)).
  { eapply app_weaken; [rewrite <- V2; eapply (app_mul _ _ _ _ _ _ (3 / 4) 4); [apply app_exact; exact F2|exact app_pi|rewrite V2, Rabs_pos_eq; lra|rewrite Rabs_pos_eq; lra|lra]|unfold u64; lra]. }
  assert (I1 : 0 < / IZR k <= 1) by (split; [apply Rinv_0_lt_compat; lra|rewrite <- Rinv_1; apply Rinv_le_contravar; lra]).
  assert (A3 : app (lit 75 2 * np_pi / n_ofZ k)%float (3 / 4 * PI / IZR k) (1 / 10 ^ 15)).
  { eapply app_weaken; [rewrite <- V; eapply (app_div _ _ _ _ 3 1); [exact A2|rewrite Rabs_pos_eq; lra|lra|rewrite V, Rabs_pos_eq; lra|lra]|unfold u64; lra]. }
  assert (A4 : app (lit 75 2 * np_pi / n_ofZ k * n_ofZ j)%float (IZR j / IZR k * (3 / 4 * PI)) (83 / 10 ^ 15)).
  { eapply app_weaken; [eapply app_eq; [eapply (app_mul _ _ _ _ _ _ 3 60); [exact A3|apply app_ofZ; lia| |apply (abs_IZR_le j 60); lia|lra]|field; lra]|unfold u64; lra].
    unfold Rdiv. rewrite Rabs_pos_eq; nra. }
  assert (M : 0 <= IZR j / IZR k * (3 / 4 * PI) <= 3) by nra.
  split; [|rewrite Rabs_pos_eq; lra].
  eapply app_weaken; [eapply (app_add _ _ _ _ _ _ 5 3); [exact A1|exact A4|rewrite Rabs_pos_eq; lra|rewrite Rabs_pos_eq; lra|lra]|unfold u64; lra].
Qed.

(** ** one value *)
Lemma half_spread lo hi B : tame lo -> tame hi -> Rabs (fval lo) <= B -> Rabs (fval hi) <= B -> B <= cap ->
  app ((hi - lo) / n_ofZ 2)%float ((fval hi - fval lo) / 2) (3 * u64 * B + eta64) /\ Rabs ((fval hi - fval lo) / 2) <= B.
Proof.
  intros Tl Th Bl Bh BC. destruct (tame_spec lo Tl) as [Fl _], (tame_spec hi Th) as [Fh _]. pose proof cap_1 as C. pose proof eta_tiny as E.
  destruct (ofZ_val 2) as [_ V]; [lia|]. assert (B0 : 0 <= B) by (eapply Rle_trans; [apply Rabs_pos|exact Bl]).
  split.
  - eapply app_weaken; [eapply app_eq; [eapply (app_div _ _ _ _ (2 * B) 2);
      [eapply (app_sub _ _ _ _ _ _ B B); [apply app_exact, Fh|apply app_exact, Fl|exact Bh|exact Bl|lra]| |lra|rewrite V, Rabs_pos_eq; lra|unfold u64; lra]|rewrite V; reflexivity]|unfold u64; lra].
    apply Rabs_le_inv in Bl, Bh. apply Rabs_le. lra.
  - apply Rabs_le_inv in Bl, Bh. apply Rabs_le. lra.
Qed.
Lemma app_value lo hi c r B : tame lo -> tame hi -> Rabs (fval lo) <= B -> Rabs (fval hi) <= B -> B <= cap ->
  app c (cos r) (94 / 10 ^ 15) ->
  nearly B (lo + (hi - lo) / n_ofZ 2 + (hi - lo) / n_ofZ 2 * c)%float (course_between (fval lo) (fval hi) r).
Proof.
  intros Tl Th Bl Bh BC Ac. destruct (half_spread lo hi B Tl Th Bl Bh BC) as [A1 M1].
  destruct (tame_spec lo Tl) as [Fl _]. pose proof cap_1 as C. pose proof eta_tiny as E. pose proof eta64_small as ES.
  assert (B0 : 0 <= B) by (eapply Rle_trans; [apply Rabs_pos|exact Bl]).
  assert (CB : Rabs (cos r) <= 1) by (apply Rabs_le, COS_bound).
  assert (A2 : app (lo + (hi - lo) / n_ofZ 2)%float ((fval lo + fval hi) / 2) (6 * u64 * B + 2 * eta64)).
  { eapply app_weaken; [eapply app_eq; [eapply (app_add _ _ _ _ _ _ B B); [apply app_exact, Fl|exact A1|exact Bl|exact M1|unfold u64; lra]|field]|unfold u64; lra]. }
  assert (A3 : app ((hi - lo) / n_ofZ 2 * c)%float ((fval hi - fval lo) / 2 * cos r) ((95 / 10 ^ 15) * B + 3 * eta64)).
  { eapply app_weaken; [eapply (app_mul _ _ _ _ _ _ B 1); [exact A1|exact Ac|exact M1|exact CB|unfold u64; lra]|unfold u64; lra]. }
  assert (M2 : Rabs ((fval lo + fval hi) / 2) <= B) by (apply Rabs_le_inv in Bl, Bh; apply Rabs_le; lra).
  assert (M3 : Rabs ((fval hi - fval lo) / 2 * cos r) <= B).
  { rewrite Rabs_mult. pose proof (Rabs_pos (cos r)). pose proof (Rabs_pos ((fval hi - fval lo) / 2)). nra. }
  pose proof (app_add _ _ _ _ _ _ B B A2 A3 M2 M3 ltac:(unfold u64; lra)) as [F H].
  split; [apply ffin_spec; exact F|]. unfold course_between. eapply Rle_trans; [exact H|]. unfold u64 in *. lra.
Qed.
Lemma app_mean_value m lo hi c r B : tame m -> tame lo -> tame hi -> Rabs (fval m) <= B -> Rabs (fval lo) <= B -> Rabs (fval hi) <= B -> B <= cap ->
  app c (cos r) (94 / 10 ^ 15) ->
  nearly B (m + (hi - lo) / n_ofZ 2 * c)%float (fval m + (fval hi - fval lo) / 2 * cos r).
Proof.
  intros Tm Tl Th Bm Bl Bh BC Ac. destruct (half_spread lo hi B Tl Th Bl Bh BC) as [A1 M1].
  destruct (tame_spec m Tm) as [Fm _]. pose proof cap_1 as C. pose proof eta_tiny as E. pose proof eta64_small as ES.
  assert (B0 : 0 <= B) by (eapply Rle_trans; [apply Rabs_pos|exact Bl]).
  assert (CB : Rabs (cos r) <= 1) by (apply Rabs_le, COS_bound).
  assert (A3 : app ((hi - lo) / n_ofZ 2 * c)%float ((fval hi - fval lo) / 2 * cos r) ((95 / 10 ^ 15) * B + 3 * eta64)).
  { eapply app_weaken; [eapply (app_mul _ _ _ _ _ _ B 1); [exact A1|exact Ac|exact M1|exact CB|unfold u64; lra]|unfold u64; lra]. }
  assert (M3 : Rabs ((fval hi - fval lo) / 2 * cos r) <= B).
  { rewrite Rabs_mult. pose proof (Rabs_pos (cos r)). pose proof (Rabs_pos ((fval hi - fval lo) / 2)). nra. }
  pose proof (app_add _ _ _ _ _ _ B B (app_exact m Fm) A3 Bm M3 ltac:(unfold u64; lra)) as [F H].
  split; [apply ffin_spec; exact F|]. eapply Rle_trans; [exact H|]. unfold u64 in *. lra.
Qed.

(** ** one hour *)
Section Hour.
  Variable cosf : float -> float.
  Hypothesis G : good_cosine cosf.
  Lemma cos_step x r : app x r (93 / 10 ^ 15) /\ Rabs r <= 320 -> app (cosf x) (cos r) (94 / 10 ^ 15).
  Proof. intros [A B]. destruct (app_cos cosf x r _ G A) as [A' _]; [lra|lra|]. eapply app_weaken; [exact A'|lra]. Qed.
  Lemma plain_hour (r : sine_row) h lo hi B : (0 <= h < 24)%Z -> plausible (r_min_loc r) (r_max_loc r) ->
    lo = (if (h <? r_max_loc r)%Z then r_min_cur r else r_min_next r) -> hi = (if (h <? r_min_loc r)%Z then r_max_before r else r_max_cur r) ->
    tame lo -> tame hi -> Rabs (fval lo) <= B -> Rabs (fval hi) <= B -> B <= cap ->
    nearly B (sine_value cosf np_pi false false r h) (course_between (fval lo) (fval hi) (day_angle (r_max_loc r) h)).
  Proof.
    intros Hh [S1 S2] EL EH Tl Th Bl Bh BC. unfold sine_value. cbv zeta. rewrite <- EL, <- EH.
    apply app_value; try assumption. apply cos_step, app_day. lia.
  Qed.
  Lemma night_hour (r : sine_row) h lo hi B : (0 <= h < 24)%Z -> plausible (r_min_loc r) (r_max_loc r) -> r_max_loc r <> (r_min_loc r + 24)%Z ->
    lo = (if (h <? r_max_loc r)%Z then r_min_cur r else r_min_next r) -> hi = (if (h <? r_min_loc r)%Z then r_max_before r else r_max_cur r) ->
    tame lo -> tame hi -> Rabs (fval lo) <= B -> Rabs (fval hi) <= B -> B <= cap ->
    nearly B (sine_value cosf np_pi false true r h) (course_between (fval lo) (fval hi) (split_angle (r_min_loc r) (r_max_loc r) h)).
  Proof.
    intros Hh [S1 S2] ND EL EH Tl Th Bl Bh BC. unfold sine_value, split_angle. cbv zeta. rewrite <- EL, <- EH.
    set (mn := r_min_loc r) in *. set (mx := r_max_loc r) in *.
    replace (mn + 24 - mx)%Z with (24 - (mx - mn))%Z by ring. replace (h + 24 - mx)%Z with (24 - mx + h)%Z by ring.
    destruct (Z.leb_spec mx h) as [C|C]; [|destruct (Z.ltb_spec mn h) as [D|D]];
      (apply app_value; [assumption|assumption|assumption|assumption|assumption|apply cos_step]).
    - apply app_night; lia.
    - apply app_morning; lia.
    - apply app_night; lia.
  Qed.
  Lemma mean_hour (r : sine_row) modn h B : (0 <= h < 24)%Z -> plausible (r_min_loc r) (r_max_loc r) ->
    tame (r_mean r) -> tame (r_min_cur r) -> tame (r_max_cur r) -> 
    Rabs (fval (r_mean r)) <= B -> Rabs (fval (r_min_cur r)) <= B -> Rabs (fval (r_max_cur r)) <= B -> B <= cap ->
    nearly B (sine_value cosf np_pi true modn r h)
      (fval (r_mean r) + (fval (r_max_cur r) - fval (r_min_cur r)) / 2 * cos (day_angle (r_max_loc r) h)).
  Proof.
    intros Hh [S1 S2] Tm Tl Th Bm Bl Bh BC. unfold sine_value. cbv zeta.
    apply app_mean_value; try assumption. apply cos_step, app_day. lia.
  Qed.
End Hour.
