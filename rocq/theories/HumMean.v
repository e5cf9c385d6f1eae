(** Rounding errors of the corrected daily mean of humidity and of the dew point methods in binary64. *)
From Coq Require Import String ZArith List Bool Lia Reals Lra Floats.
From Flocq Require Import Core BinarySingleNaN PrimFloat.
From Verif Require Import Py Num Cal Series UtilModel UtilModel2 Frame HumModel HumMeanModel SpecBase SpecUtil TimeProofs EqualProofs IndexProofs DaysProofs TempProofs TempCourse
  HumProofs F64 CascadeFloat CascadeRound SpecFiveRound FiveRound SpecCourseRound CourseRound SpecSineRound ErrCalc WindRound SpecScaleRound InterpRound SpecHumRound HumRound SpecHumMean.
Import ListNotations.
Open Scope Z_scope.
Notation float := PrimFloat.float (only parsing).

(** ** the series *)
Section Series.
  Context {T : Type} {N : Num T}.
  Lemma distribute_function2 e d0 (a : list T) : n_isnan (n_nan : T) = true -> a <> [] ->
    exists g, distribute_equally e (daily d0 a) false = Ok (map (fun t => (t, g t)) (hours_index d0 (length a))) /\
      forall i h v, nth_error a i = Some v -> (h < 24)%nat ->
        if n_isnan v then n_isnan (g (stamp (d0 + Z.of_nat i) h)) = true else g (stamp (d0 + Z.of_nat i) h) = v.
  Proof.
    intros NN NE. destruct (distribute_own_day NN e d0 a NE) as (out & E & I & D). set (g := fun t => match lookup t out with Some v => v | None => n_nan end).
    assert (F : out = map (fun t => (t, g t)) (hours_index d0 (length a))) by exact (hours_function d0 (length a) out I). exists g. split; [rewrite E; f_equal; exact F|].
    intros i h v Hi Hh. destruct (D i v Hi) as [_ V]. rewrite F in V.
    rewrite (values_on_map_hours g d0 (length a) i) in V by (apply nth_error_Some; congruence).
    assert (Q : In (g (stamp (d0 + Z.of_nat i) h)) (map (fun h => g (stamp (d0 + Z.of_nat i) h)) (seq 0 24))).
    { apply (in_map (fun h => g (stamp (d0 + Z.of_nat i) h))), in_seq. lia. }
    destruct (n_isnan v); [rewrite Forall_forall in V; exact (V _ Q)|]. rewrite V in Q. apply repeat_spec in Q. exact Q.
  Qed.

  Lemma preserve_function mean e (d : dframe T) d0 n hum (raw : series T) : n_isnan (n_nan : T) = true -> n <> O ->
    f_index d = daily_index d0 n -> assoc "hum" (f_cols d) = Some hum -> length hum = n -> map fst raw = hours_index d0 n ->
    exists out, preserve_with mean e d raw = Ok out /\ map fst out = hours_index d0 n /\
      forall i o, nth_error hum i = Some o ->
        let b := (mean (values_on (d0 + Z.of_nat i) raw) - o)%num in
        values_on (d0 + Z.of_nat i) out = map (fun x => (x - (if n_isnan b then n0 else b))%num) (values_on (d0 + Z.of_nat i) raw).
  Proof.
    intros NN NE FI C L ER. unfold preserve_with. rewrite (fcol_daily d d0 n _ _ FI C L). cbn [bind].
    rewrite (resample_hours mean d0 n raw ER), <- (daily_seq (fun i => mean (values_on (d0 + Z.of_nat i) raw))).
    set (M := fun i => mean (values_on (d0 + Z.of_nat i) raw)).
    unfold index. rewrite !daily_fst, L, map_length, seq_length, union_same by apply daily_index_sorted.
    set (B := fun i => (M i - nth i hum n_nan)%num).
    match goal with |- context [distribute_equally e ?x false] => assert (ED : x = daily d0 (map B (seq 0 n))) end.
    { rewrite (daily_seq B). unfold daily_index, grid. rewrite map_map. apply map_ext_in. intros i Hi. apply in_seq in Hi.
      replace (d0 * us_day + Z.of_nat i * us_day) with ((d0 + Z.of_nat i) * us_day) by ring. f_equal. unfold B. rewrite !TempProofs.lookup_daily, (nth_error_nth' hum i n_nan) by lia.
      rewrite nth_error_map, (nth_error_nth' (seq 0 n) i O) by (rewrite seq_length; lia). rewrite seq_nth by lia. reflexivity. }
    assert (NEB : map B (seq 0 n) <> []) by (destruct n; [congruence|discriminate]).
    rewrite ED. destruct (distribute_function2 e d0 (map B (seq 0 n)) NN NEB) as (g & EG & G).
    rewrite EG. cbn [bind]. rewrite map_length, seq_length. set (f := fun t => match lookup t raw with Some v => v | None => n_nan end).
    assert (FR : raw = map (fun t => (t, f t)) (hours_index d0 n)) by exact (hours_function d0 n raw ER).
    eexists. split; [reflexivity|]. rewrite !map_map. cbn [fst snd]. split; [exact ER|]. intros i o Ho. set (b := (mean (values_on (d0 + Z.of_nat i) raw) - o)%num).
    assert (Hi : (i < n)%nat) by (rewrite <- L; apply nth_error_Some; congruence).
    assert (EB : nth_error (map B (seq 0 n)) i = Some b).
    { rewrite nth_error_map, (nth_error_nth' (seq 0 n) i O) by (rewrite seq_length; lia). rewrite seq_nth by lia. cbn [Nat.add option_map]. f_equal. unfold B, b.
      rewrite (nth_error_nth _ _ n_nan Ho). reflexivity. }
    clearbody b. clear ED EG NEB. rewrite FR. clearbody f. rewrite !map_map. cbn [fst snd].
    etransitivity; [exact (values_on_map_hours _ d0 n i Hi)|].
    rewrite (values_on_map_hours f d0 n i Hi), map_map. apply map_ext_in. intros h Hh. apply in_seq in Hh. cbv beta.
    assert (LK : forall (q : Z -> T) t l, In t l -> lookup t (map (fun x => (x, q x)) l) = Some (q t)).
    { clear. intros q t l. induction l as [|u l IH]; intro K; [destruct K|]. cbn [map lookup]. destruct (Z.eqb_spec u t) as [->|N']; [reflexivity|]. apply IH. destruct K; [contradiction|assumption]. }
    rewrite (LK (fun x => if n_isnan (g x) then n0 else g x)).
    - specialize (G i h b EB ltac:(lia)). destruct (n_isnan b) eqn:EN; [rewrite G; reflexivity|]. rewrite G, EN. reflexivity.
    - apply in_hours. exists i, h. split; [exact Hi|]. split; [lia|reflexivity].
  Qed.
End Series.
Open Scope R_scope.
Section Series2.
  Context {T : Type} {N : Num T}.
  Lemma dew_function saturation wave e (d : dframe T) d0 n tmin tp a0 a1 kr : n_isnan (n_nan : T) = true -> n <> O -> length tmin = n -> map fst tp = hours_index d0 n ->
    exists out, dewpoint_humidity saturation wave e false (daily d0 tmin) (Some tp) a0 a1 kr = Ok out /\ map fst out = hours_index d0 n /\
      forall i m, nth_error tmin i = Some m -> n_isnan (a0 + a1 * m)%num = false ->
        values_on (d0 + Z.of_nat i)%Z out = map (fun x => (n_ofZ 100 * saturation (a0 + a1 * m) / saturation x)%num) (values_on (d0 + Z.of_nat i)%Z tp).
  Proof.
    intros NN NE L ET. unfold dewpoint_humidity. rewrite <- (daily_map (fun x => (a0 + a1 * x)%num)).
    assert (NEB : map (fun x => (a0 + a1 * x)%num) tmin <> []) by (destruct tmin; [cbn in L; congruence|discriminate]).
    destruct (distribute_function e d0 (map (fun x => (a0 + a1 * x)%num) tmin) NN NEB) as (g & EG & G).
    rewrite map_length, L in EG. rewrite EG. cbn [bind]. set (f := fun t => match lookup t tp with Some v => v | None => n_nan end).
    assert (FT : tp = map (fun t => (t, f t)) (hours_index d0 n)) by exact (hours_function d0 n tp ET). clearbody f. subst tp.
    rewrite !map_length, Nat.eqb_refl. cbn [negb]. rewrite combine_maps, map_map. cbn [fst snd]. eexists. split; [reflexivity|].
    split; [rewrite map_map; apply map_id|]. intros i m Hm NM.
    assert (Hi : (i < n)%nat) by (rewrite <- L; apply nth_error_Some; congruence).
    etransitivity; [exact (values_on_map_hours _ d0 n i Hi)|].
    rewrite (values_on_map_hours f d0 n i Hi), map_map. apply map_ext_in. intros h Hh. apply in_seq in Hh. cbv beta.
    rewrite (G i h (a0 + a1 * m)%num); [reflexivity| |lia|exact NM]. rewrite nth_error_map, Hm. reflexivity.
  Qed.
  Lemma clip_values (s : series T) dd : values_on dd (map (fun p => (fst p, clip1 n0 (n_ofZ 100) (snd p))) s) = map (clip1 n0 (n_ofZ 100)) (values_on dd s).
  Proof. apply values_on_map. Qed.
End Series2.

(** ** one value *)
Lemma clip_f x : ffin x -> let c := clip1 n0 (n_ofZ 100) x in ffin c /\ fval c = to_percent (fval x).
Proof.
  intros F c. unfold c, clip1. change (n_ltb x n0) with (x <? 0)%float. change (n_ltb (n_ofZ 100) x) with (100 <? x)%float.
  destruct hundred as [F1 V1]. unfold to_percent.
  destruct (fltb_correct x 0%float F ffin_zero) as [L|L]; change (fval 0%float) with 0 in L.
  - split; [exact ffin_zero|]. change (fval n0) with 0. rewrite Rmax_left, Rmin_right by lra. reflexivity.
  - destruct (fltb_correct 100%float x F1 F) as [K|K]; rewrite V1 in K.
    + split; [exact F1|]. change (fval (n_ofZ 100)) with (fval 100%float). rewrite V1, Rmax_right, Rmin_left by lra. reflexivity.
    + split; [exact F|]. rewrite Rmax_right, Rmin_right by lra. reflexivity.
Qed.
Lemma to_percent_range r : 0 <= to_percent r <= 100.
Proof. unfold to_percent. split; [apply Rmin_glb; [lra|apply Rmax_l]|apply Rmin_l]. Qed.
Lemma to_percent_le a b : a <= b -> to_percent a <= to_percent b.
Proof. intro H. unfold to_percent. apply Rle_min_compat_l, Rle_max_compat_l, H. Qed.
Lemma to_percent_lip a b e : Rabs (a - b) <= e -> Rabs (to_percent a - to_percent b) <= e.
Proof.
  intro H. apply Rabs_le_inv in H. apply Rabs_le. unfold to_percent, Rmin, Rmax.
  repeat (destruct (Rle_dec _ _)); lra.
Qed.
Lemma partly_spec x : partly x -> ffin x /\ 0 < fval x < 100.
Proof.
  unfold partly. rewrite andb_true_iff. intros [A B]. destruct hundred as [F1 V1].
  assert (LE : forall a b : float, (a <? b)%float = true -> (a <=? b)%float = true).
  { intros a b. rewrite FloatAxioms.ltb_spec, FloatAxioms.leb_spec. unfold SFltb, SFleb. destruct (SFcompare _ _) as [[]|]; congruence. }
  assert (F : ffin x) by (apply (between_finite 0%float x 100%float); [reflexivity|reflexivity|apply LE, A|apply LE, B]).
  destruct (fltb_correct 0%float x ffin_zero F) as [L|]; [|discriminate]. destruct (fltb_correct x 100%float F F1) as [K|]; [|discriminate].
  rewrite V1 in K. change (fval 0%float) with 0 in L. split; [exact F|split; assumption].
Qed.
Lemma partly_clip x : partly (clip1 n0 (n_ofZ 100) x) -> clip1 n0 (n_ofZ 100) x = x.
Proof.
  unfold clip1. destruct (n_ltb x n0); [discriminate|]. destruct (n_ltb (n_ofZ 100) x); [discriminate|reflexivity].
Qed.
Lemma partly_moderate x : partly x -> moderate x.
Proof.
  intro H. destruct (partly_spec x H) as [F B]. apply moderate_fok. split; [split; [exact F|lra]|]. pose proof cap_1. lra.
Qed.

(** ** the correction *)
Lemma Rmean_err (xs ys : list R) e : length xs = length ys -> xs <> [] -> (forall i x y, nth_error xs i = Some x -> nth_error ys i = Some y -> Rabs (x - y) <= e) ->
  Rabs (Rmean xs - Rmean ys) <= e.
Proof.
  intros L NE H. assert (G : Rabs (Rsum xs - Rsum ys) <= INR (length xs) * e).
  { clear NE. revert ys L H. unfold Rsum. induction xs as [|x xs IH]; intros [|y ys] L H; cbn [length] in L; try lia.
    - cbn. rewrite Rminus_0_r, Rabs_R0. lra.
    - cbn [fold_right length]. rewrite S_INR. specialize (IH ys ltac:(lia) (fun i a b => H (S i) a b)). pose proof (H O x y eq_refl eq_refl) as H0.
      replace (x + fold_right Rplus 0 xs - (y + fold_right Rplus 0 ys)) with ((x - y) + (fold_right Rplus 0 xs - fold_right Rplus 0 ys)) by ring.
      eapply Rle_trans; [apply Rabs_triang|]. lra. }
  assert (P : 0 < INR (length xs)) by (apply lt_0_INR; destruct xs; [congruence|cbn; lia]).
  unfold Rmean. rewrite <- L. replace (Rsum xs / INR (length xs) - Rsum ys / INR (length xs)) with ((Rsum xs - Rsum ys) * / INR (length xs)) by (unfold Rdiv; ring).
  rewrite Rabs_mult, (Rabs_pos_eq (/ _)) by (left; apply Rinv_0_lt_compat, P).
  apply Rmult_le_reg_r with (INR (length xs)); [exact P|]. rewrite Rmult_assoc, Rinv_l, Rmult_1_r by lra. lra.
Qed.
Lemma Rmean_shift l b : l <> [] -> Rmean (map (fun r => r - b) l) = Rmean l - b.
Proof.
  intro NE. assert (P : 0 < INR (length l)) by (apply lt_0_INR; destruct l; [congruence|cbn; lia]).
  assert (E : Rsum (map (fun r => r - b) l) = Rsum l - INR (length l) * b).
  { clear. unfold Rsum. induction l as [|x l IH]; [cbn; ring|]. cbn [map fold_right length]. rewrite IH, S_INR. ring. }
  unfold Rmean. rewrite map_length, E. field. lra.
Qed.
Lemma Rmean_in l lo hi : l <> [] -> Forall (fun r => lo <= r <= hi) l -> lo <= Rmean l <= hi.
Proof.
  intros NE F. assert (P : 0 < INR (length l)) by (apply lt_0_INR; destruct l; [congruence|cbn; lia]).
  assert (E : INR (length l) * lo <= Rsum l <= INR (length l) * hi).
  { clear P NE. unfold Rsum. induction F as [|x l H F IH]; [cbn; lra|]. cbn [fold_right length]. rewrite S_INR. lra. }
  unfold Rmean. split; (apply Rmult_le_reg_r with (INR (length l)); [exact P|]); unfold Rdiv; rewrite Rmult_assoc, Rinv_l, Rmult_1_r by lra; lra.
Qed.

Section Correction.
  Variables (mean : list float -> float) (xs : list float) (o : float).
  Hypothesis (HM : means_within mean) (HL : length xs = 24%nat) (HX : Forall partly xs) (HO : percent o).
  Let b := (mean xs - o)%float.
  Let B := Rmean (map fval xs) - fval o.
  Lemma xs_some {A} (f : float -> A) : map f xs <> [].
  Proof. intro K. apply map_eq_nil in K. pose proof HL as L. rewrite K in L. discriminate L. Qed.
  Lemma mean_range : 0 <= Rmean (map fval xs) <= 100.
  Proof.
    apply Rmean_in; [apply xs_some|]. apply Forall_map. eapply Forall_impl; [|exact HX]. cbv beta. intros x H. destruct (partly_spec x H). lra.
  Qed.
  Lemma bias_spec : ffin b /\ Rabs (fval b) <= 101 /\ Rabs (fval b - B) <= 31 / 10 ^ 13.
  Proof.
    destruct (HM xs HL) as (F & P & E). { eapply Forall_impl; [|exact HX]. exact partly_moderate. }
    apply ffin_spec in F. pose proof mean_range as R. destruct (percent_spec o HO) as [FO BO].
    assert (T300 : 1 / 10 ^ 300 <= 1 / 10 ^ 20).
    { unfold Rdiv. rewrite !Rmult_1_l. apply Rinv_le_contravar; [apply pow_lt; lra|]. apply Rle_pow; [lra|lia]. }
    set (t := 1 / 10 ^ 300) in *. clearbody t. set (M := Rmean (map fval xs)) in *. apply Rabs_le_inv in E. pose proof cap_1 as C1.
    assert (U : u64 = / 9007199254740992) by reflexivity.
    destruct (fsub_correct (mean xs) o F FO) as [EB FB]; [apply rnd_in_range; apply Rabs_le; lra|].
    fold b in EB, FB. split; [exact FB|]. pose proof (rnd_rel_sub (mean xs) o) as RR. rewrite <- EB in RR.
    assert (A : Rabs (fval (mean xs) - fval o) <= 100 + 1 / 100) by (apply Rabs_le; lra).
    assert (A2 : u64 * Rabs (fval (mean xs) - fval o) <= 101 * u64) by (rewrite U in *; lra).
    apply Rabs_le_inv in RR, A. unfold B. fold M. split; apply Rabs_le; rewrite U in *; lra.
  Qed.
  Definition corrected (x : float) : float := clip1 n0 (n_ofZ 100) (x - b)%num.
  Lemma corrected_spec x : partly x -> ffin (corrected x) /\ fval (corrected x) = to_percent (rnd (fval x - fval b)) /\
    Rabs (fval (corrected x) - to_percent (fval x - B)) <= 4 / 10 ^ 12 /\
    (0 < fval (corrected x) < 100 -> Rabs (fval (corrected x) - (fval x - B)) <= 4 / 10 ^ 12).
  Proof.
    intro HP. destruct (partly_spec x HP) as [FX BX]. destruct bias_spec as (FB & BB & EB). pose proof cap_1 as C1. apply Rabs_le_inv in BB, EB.
    destruct (fsub_correct x b FX FB) as [ES FS]; [apply rnd_in_range; apply Rabs_le; lra|].
    destruct (clip_f _ FS) as [FC VC]. change (clip1 n0 (n_ofZ 100) (x - b)%float) with (corrected x) in FC, VC.
    split; [exact FC|]. split; [rewrite VC, ES; reflexivity|].
    pose proof (rnd_rel_sub x b) as RR. rewrite <- ES in RR. assert (A : Rabs (fval x - fval b) <= 201) by (apply Rabs_le; lra).
    assert (U : u64 = / 9007199254740992) by reflexivity.
    assert (A2 : u64 * Rabs (fval x - fval b) <= 201 * u64) by (rewrite U in *; lra). apply Rabs_le_inv in RR.
    assert (D : Rabs (fval (x - b)%float - (fval x - B)) <= 4 / 10 ^ 12) by (apply Rabs_le; rewrite U in *; lra).
    split; [rewrite VC; apply to_percent_lip, D|]. intro IN. rewrite VC in IN |- *.
    assert (EI : to_percent (fval (x - b)%float) = fval (x - b)%float).
    { unfold to_percent, Rmin, Rmax in *. repeat (destruct (Rle_dec _ _)); lra. }
    rewrite EI. exact D.
  Qed.
  Lemma corrected_le x y : partly x -> partly y -> fval x <= fval y -> fval (corrected x) <= fval (corrected y).
  Proof.
    intros HP HQ L. destruct (corrected_spec x HP) as (_ & -> & _). destruct (corrected_spec y HQ) as (_ & -> & _). apply to_percent_le, rnd_le. lra.
  Qed.
  Lemma corrected_mean : (forall x, In x xs -> partly (corrected x)) -> Rabs (Rmean (map fval (map corrected xs)) - fval o) <= 4 / 10 ^ 12.
  Proof.
    intro H.
    assert (E : Rmean (map (fun r => r - B) (map fval xs)) = fval o).
    { rewrite Rmean_shift; [unfold B; ring|]. apply xs_some. }
    rewrite <- E. apply Rmean_err; [rewrite !map_length; reflexivity|rewrite map_map; apply xs_some|].
    intros i p q Hp Hq. rewrite !nth_error_map in Hp, Hq. destruct (nth_error xs i) as [x|] eqn:EX; [|discriminate].
    cbn [option_map] in Hp, Hq. injection Hp as <-. injection Hq as <-. pose proof (nth_error_In _ _ EX) as I.
    destruct (corrected_spec x (proj1 (Forall_forall _ _) HX x I)) as (_ & _ & _ & K). apply K. apply partly_spec, H, I.
  Qed.
End Correction.

(** ** the dew point *)
Lemma pressure_spec p : pressure p -> ffin p /\ bpow radix2 (-400) <= fval p <= cap4.
Proof.
  unfold pressure. rewrite andb_true_iff. intros [A B].
  assert (F : ffin p) by (apply (between_finite 0x1p-400%float p 0x1p400%float); (reflexivity || assumption)).
  assert (F1 : ffin 0x1p-400%float) by reflexivity. assert (F2 : ffin 0x1p400%float) by reflexivity.
  apply (leb_true _ _ F1 F) in A. apply (leb_true _ _ F F2) in B.
  assert (V1 : fval 0x1p-400%float = bpow radix2 (-400)) by (unfold fval; vm_compute; lra).
  assert (V2 : fval 0x1p400%float = cap4) by (unfold fval, cap4; vm_compute; lra).
  rewrite V1 in A. rewrite V2 in B. tauto.
Qed.
Definition saturated (p s : float) : float := clip1 n0 (n_ofZ 100) (n_ofZ 100 * p / s)%num.
Lemma saturated_spec p s : pressure p -> pressure s ->
  ffin (saturated p s) /\ fval (saturated p s) = to_percent (rnd (rnd (100 * fval p) / fval s)) /\
  Rabs (fval (saturated p s) - rel_humidity p s) <= 3 / 10 ^ 14.
Proof.
  intros HP HS. destruct (pressure_spec p HP) as [FP [P1 P2]], (pressure_spec s HS) as [FS [S1 S2]].
  pose proof cap4_square as [K1 K2]. destruct hundred as [F1 V1].
  assert (T0 : 0 < bpow radix2 (-400)) by apply bpow_gt_0.
  assert (T4 : bpow radix2 (-400) * cap4 = 1) by (unfold cap4; rewrite <- bpow_plus; reflexivity).
  assert (T8 : bpow radix2 (-960) <= bpow radix2 (-400) * bpow radix2 (-400)) by (rewrite <- bpow_plus; apply bpow_le; lia).
  assert (T9 : bpow radix2 (-960) <= bpow radix2 (-400)) by (apply bpow_le; lia).
  assert (V : v64 <= / 9007199254740991) by (unfold v64, u64; lra). assert (V0 : 0 < v64) by (unfold v64, u64; lra).
  set (t := bpow radix2 (-400)) in *. set (t2 := bpow radix2 (-960)) in *.
  assert (K3 : 8 * cap4 <= cap) by (assert (1 * cap4 <= cap4 * cap4) by (apply Rmult_le_compat_r; lra); lra).
  assert (C0 : 0 < cap4) by lra.
  destruct (fmul_correct 100%float p F1 FP) as [E1 F2]; [rewrite V1; apply rnd_in_range; rewrite Rabs_pos_eq by lra; lra|]. rewrite V1 in E1.
  assert (R1 : Rabs (rnd (100 * fval p) - 100 * fval p) <= v64 * (100 * fval p)).
  { pose proof (rnd_rel (100 * fval p)) as R. rewrite (Rabs_pos_eq (100 * fval p)) in R by lra. apply R. change (t2 <= 100 * fval p). lra. }
  apply Rabs_le_inv in R1. set (q1 := rnd (100 * fval p)) in *.
  set (r := 100 * fval p / fval s). assert (Er : r * fval s = 100 * fval p) by (unfold r; field; lra).
  set (r1 := q1 / fval s). assert (Er1 : r1 * fval s = q1) by (unfold r1; field; lra).
  assert (RI : 0 < / fval s) by (apply Rinv_0_lt_compat; lra).
  assert (Rp : 0 < r) by (unfold r; apply Rmult_lt_0_compat; lra).
  assert (RR : r * (1 - v64) <= r1 <= r * (1 + v64)).
  { split; (apply Rmult_le_reg_r with (fval s); [lra|]); rewrite Er1; nra. }
  assert (RLO : t2 <= r1).
  { apply Rmult_le_reg_r with (fval s); [lra|]. rewrite Er1. apply Rle_trans with (99 * t).
    - apply Rle_trans with (t * t * cap4); [apply Rmult_le_compat; [left; apply bpow_gt_0|lra|exact T8|exact S2]|]. rewrite Rmult_assoc, T4. lra.
    - assert (v64 * (100 * fval p) <= / 9007199254740991 * (100 * fval p)) by (apply Rmult_le_compat_r; lra). lra. }
  assert (RHI : r1 <= 100 * cap).
  { apply Rmult_le_reg_r with (fval s); [lra|]. rewrite Er1. apply Rle_trans with (100 * cap * t); [|apply Rmult_le_compat_l; lra].
    assert (v64 * (100 * fval p) <= / 9007199254740991 * (100 * fval p)) by (apply Rmult_le_compat_r; lra).
    assert (8 * (cap4 * cap4) * t <= cap * t) by (apply Rmult_le_compat_r; lra).
    replace (8 * (cap4 * cap4) * t) with (8 * cap4 * (t * cap4)) in * by ring. rewrite T4 in *. lra. }
  destruct (fdiv_correct (100 * p)%float s F2) as [E3 F3]; [lra|rewrite E1; fold q1; fold r1; apply rnd_in_range; rewrite Rabs_pos_eq by (apply Rle_trans with t2; [left; apply bpow_gt_0|exact RLO]); exact RHI|].
  rewrite E1 in E3. fold q1 in E3. fold r1 in E3. destruct (clip_f _ F3) as [FC VC].
  change (clip1 n0 (n_ofZ 100) (100 * p / s)%float) with (saturated p s) in FC, VC.
  split; [exact FC|]. split; [rewrite VC, E3; reflexivity|].
  assert (r10 : 0 < r1) by (apply Rlt_le_trans with t2; [apply bpow_gt_0|exact RLO]).
  assert (R2 : Rabs (rnd r1 - r1) <= v64 * r1).
  { pose proof (rnd_rel r1) as R. rewrite (Rabs_pos_eq r1) in R by lra. apply R. exact RLO. }
  apply Rabs_le_inv in R2. rewrite VC, E3. unfold rel_humidity. fold r. set (y := rnd r1) in *.
  assert (W : r * v64 <= r * / 9007199254740991) by (apply Rmult_le_compat_l; lra). assert (W0 : 0 < r * v64) by (apply Rmult_lt_0_compat; lra).
  assert (W1 : v64 * r1 <= 1.1 * (r * v64)).
  { apply Rle_trans with (v64 * (r * (1 + v64))); [apply Rmult_le_compat_l; lra|]. replace (v64 * (r * (1 + v64))) with ((r * v64) * (1 + v64)) by ring.
    rewrite (Rmult_comm 1.1). apply Rmult_le_compat_l; lra. }
  assert (YB : r - 2.2 * (r * v64) <= y <= r + 2.2 * (r * v64)) by lra.
  assert (y0 : 0 <= y) by lra. unfold to_percent. rewrite Rmax_right by exact y0.
  apply Rabs_le. unfold Rmin. destruct (Rle_dec 100 y), (Rle_dec 100 r); lra.
Qed.
Lemma saturated_le p s s' : pressure p -> pressure s -> pressure s' -> fval s <= fval s' -> fval (saturated p s') <= fval (saturated p s).
Proof.
  intros HP HS HS' L. destruct (saturated_spec p s HP HS) as (_ & -> & _). destruct (saturated_spec p s' HP HS') as (_ & -> & _).
  apply to_percent_le, rnd_le. destruct (pressure_spec p HP) as [_ [P1 _]], (pressure_spec s HS) as [_ [S1 _]].
  assert (T0 : 0 < bpow radix2 (-400)) by apply bpow_gt_0.
  unfold Rdiv. apply Rmult_le_compat_l; [apply rnd_nonneg; lra|]. apply Rinv_le_contravar; lra.
Qed.
Lemma fval_inj x y : ffin x -> ffin y -> fval x = fval y -> 0 < fval x -> x = y.
Proof.
  intros FX FY E P. apply Prim2B_inj. unfold fval, ffin in *. apply B2R_inj; [| |exact E].
  - destruct (Prim2B x) as [s|s| |s m e H]; cbn in *; try discriminate; try lra; reflexivity.
  - destruct (Prim2B y) as [s|s| |s m e H]; cbn in *; try discriminate; try lra; reflexivity.
Qed.
Lemma identity_dew m : ffin m -> 0 < fval m -> (n0 + n1 * m)%num = m.
Proof.
  intros F P. pose proof (fval_lt_big' m) as B.
  assert (AB : Rabs (rnd (fval m)) < big) by (rewrite rnd_fval, Rabs_pos_eq by lra; exact B).
  destruct (fmul_correct n1 m ffin_one F) as [E1 F1]; [rewrite fval_one, Rmult_1_l; exact AB|]. rewrite fval_one, Rmult_1_l, rnd_fval in E1.
  destruct (fadd_correct n0 (n1 * m)%float ffin_zero F1) as [E2 F2]; [rewrite fval_zero, E1, Rplus_0_l; exact AB|].
  rewrite fval_zero, E1, Rplus_0_l, rnd_fval in E2. apply fval_inj; [exact F2|exact F|exact E2|]. change (0 < fval (n0 + n1 * m)%float). rewrite E2. exact P.
Qed.
Lemma sub_nan x o : PrimFloat.is_nan o = true -> n_isnan (x - o)%float = true.
Proof.
  intro H. cbn [n_isnan Num_f64]. unfold f64_isnan. rewrite is_nan_equiv in H. rewrite eqb_equiv, sub_equiv.
  destruct (Prim2B o); try discriminate H. destruct (Prim2B x); reflexivity.
Qed.
Lemma sub_0 x : ffin x -> 0 < fval x -> (x - n0)%float = x.
Proof.
  intros F P. destruct (fsub_correct x n0 F ffin_zero) as [E G].
  { rewrite fval_zero, Rminus_0_r, rnd_fval. apply fval_lt_big. }
  rewrite fval_zero, Rminus_0_r, rnd_fval in E. apply fval_inj; [exact G|exact F|exact E|rewrite E; exact P].
Qed.
