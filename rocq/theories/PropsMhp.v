(** Property C132: humidity by month, hour and wet day in binary64 arithmetic. *)
From Coq Require Import String ZArith List Bool Lia Reals Lra Floats.
From Flocq Require Import Core.
From Verif Require Import Py Num Cal Series Trans UtilModel UtilModel2 Frame HumModel SpecBase SpecUtil SpecHum SpecCourseRound SpecHumRound TimeProofs DaysProofs IndexProofs TempProofs EqualProofs HumProofs PropsHum
  F64 CascadeFloat CascadeRound FiveRound AggRound CourseRound ScaleRound HumRound PropsHumRound SpecHumMean HumMean PropsHumMean PropsNeeds PropsMissing MhpModel SpecShift PropsShift SpecMhp.
Import ListNotations.
Open Scope Z_scope.
Notation float := PrimFloat.float (only parsing).

(** the formulas are those of the other properties *)
Theorem C132_same {T} {N : Num T} (d : dframe T) : classes_any nansum nanmean d = calculate_month_hour_precip_mean d.
Proof. reflexivity. Qed.
Print Assumptions C132_same.

Section Generic.
  Context {T : Type} {N : Num T}.
  Variables sum mean : list T -> T.
  Lemma table_classes d precip hum (wet : Z -> bool) :
    assoc "precip" (f_cols d) = Some precip -> assoc "hum" (f_cols d) = Some hum ->
    List.length precip = List.length (f_index d) -> List.length hum = List.length (f_index d) ->
    (forall t, In t (f_index d) -> (n0 <? sum (values_on (date_of t) (combine (f_index d) precip)))%num = wet t) ->
    exists tbl, classes_any sum mean d = Ok tbl /\
      forall m h w, mhp_get (m, h, w) tbl
        = match map snd (filter (fun p => (month_of (fst p) =? m) && (hour_of (fst p) =? h) && Bool.eqb (wet (fst p)) w) (combine (f_index d) hum)) with
          | [] => None | g => Some (mean g) end.
  Proof.
    intros EP EH LP LH HW. set (ps := combine (f_index d) precip) in *. set (hs := combine (f_index d) hum).
    assert (IP : map fst ps = f_index d) by (apply combine_fst; exact LP). assert (IH : map fst hs = f_index d) by (apply combine_fst; exact LH).
    assert (WD : forall t, In t (f_index d) -> wet_any sum ps t = Ok (wet t)).
    { intros t Ht. unfold wet_any. rewrite <- (HW t Ht). rewrite <- IP in Ht. rewrite (resample_day sum ps t Ht). reflexivity. }
    unfold classes_any, fcol. rewrite EP, EH. cbn [bind]. fold ps hs.
    rewrite (mapM_Ok _ (fun p => ((month_of (fst p), hour_of (fst p), wet (fst p)), snd p))).
    2: { intros p Hp. rewrite WD; [reflexivity|]. rewrite <- IH. apply in_map, Hp. }
    cbn [bind]. fold mhp_keys. eexists. split; [reflexivity|]. intros m h w.
    set (rows := map (fun p => ((month_of (fst p), hour_of (fst p), wet (fst p)), snd p)) hs).
    rewrite (mhp_get_table (fun k => filter (fun r => mhp_eqb (fst r) k) rows) (fun l => mean (map snd l))).
    assert (EG : map snd (filter (fun r => mhp_eqb (fst r) (m, h, w)) rows)
                 = map snd (filter (fun p => (month_of (fst p) =? m) && (hour_of (fst p) =? h) && Bool.eqb (wet (fst p)) w) hs)).
    { unfold rows. clear. induction hs as [|p l IH]; [reflexivity|]. cbn [map filter fst]. cbn [mhp_eqb]. destruct (_ && _); cbn [map snd]; rewrite IH; reflexivity. }
    rewrite <- EG. destruct (existsb (mhp_eqb (m, h, w)) mhp_keys) eqn:EK.
    - destruct (filter (fun r => mhp_eqb (fst r) (m, h, w)) rows); reflexivity.
    - replace (filter (fun r => mhp_eqb (fst r) (m, h, w)) rows) with (@nil (mhp_key * T)); [reflexivity|]. symmetry. unfold rows.
      assert (X : forall l : series T, filter (fun r : mhp_key * T => mhp_eqb (fst r) (m, h, w)) (map (fun p => ((month_of (fst p), hour_of (fst p), wet (fst p)), snd p)) l) = []).
      { induction l as [|p l IL]; [reflexivity|]. cbn [map filter fst]. destruct (mhp_eqb_spec (month_of (fst p), hour_of (fst p), wet (fst p)) (m, h, w)) as [E|_]; [|exact IL].
        exfalso. rewrite <- not_true_iff_false in EK. apply EK, mhp_keys_In. assert (m = month_of (fst p) /\ h = hour_of (fst p)) as [-> ->] by (split; congruence). split; [apply month_range|apply hour_range]. }
      apply X.
  Qed.

  Lemma class_lookup saturation wave e (d : dframe T) d0 n rain temp a0 a1 kr tbl :
    n_isnan (n_nan : T) = true -> (forall x : T, n_isnan x = true -> (n0 <? x)%num = false) ->
    n <> O -> f_index d = daily_index d0 n -> assoc "precip" (f_cols d) = Some rain -> List.length rain = n ->
    let entry i h := mhp_get (month_of_day (d0 + Z.of_nat i), Z.of_nat h, (n0 <? nth i rain n_nan)%num) tbl in
    ((exists i h, (i < n)%nat /\ (h < 24)%nat /\ entry i h = None) ->
      disaggregate_humidity_gen saturation wave e d "month_hour_precip_mean" temp a0 a1 kr (Some tbl) false = Err KeyError) /\
    ((forall i h, (i < n)%nat -> (h < 24)%nat -> entry i h <> None) ->
      exists out, disaggregate_humidity_gen saturation wave e d "month_hour_precip_mean" temp a0 a1 kr (Some tbl) false = Ok out /\ map fst out = hours_index d0 n /\
        forall i h, (i < n)%nat -> (h < 24)%nat -> nth_error (values_on (d0 + Z.of_nat i) out) h = option_map (clip1 n0 (n_ofZ 100)) (entry i h)).
  Proof.
    intros NN NL NE FI C L entry.
    assert (NR : rain <> []) by (destruct rain; [cbn in L; congruence|discriminate]).
    destruct (distribute_function2 e d0 rain NN NR) as (g & EG & G). rewrite L in EG.
    unfold disaggregate_humidity_gen. cbn [existsb String.eqb Ascii.eqb Bool.eqb orb negb]. unfold raw_humidity. cbn [String.eqb Ascii.eqb Bool.eqb orb].
    rewrite (fcol_daily d d0 n _ _ FI C L). cbn [bind]. rewrite EG. cbn [bind]. rewrite TempProofs.mapM_map. cbn [fst snd].
    set (look := fun t => mhp_get (month_of t, hour_of t, (n0 <? g t)%num) tbl).
    assert (EL : forall i h, (i < n)%nat -> (h < 24)%nat -> look (stamp (d0 + Z.of_nat i) h) = entry i h).
    { intros i h Hi Hh. unfold look, entry. rewrite stamp_month, stamp_hour by exact Hh.
      assert (Hr : nth_error rain i = Some (nth i rain n_nan)) by (apply nth_error_nth'; lia). pose proof (G i h _ Hr Hh) as GV.
      replace (n0 <? g (stamp (d0 + Z.of_nat i) h))%num with (n0 <? nth i rain n_nan)%num; [reflexivity|].
      destruct (n_isnan (nth i rain n_nan)) eqn:EN; [rewrite (NL _ EN), (NL _ GV); reflexivity|rewrite GV; reflexivity]. }
    assert (ST : forall t, In t (hours_index d0 n) -> exists i h, (i < n)%nat /\ (h < 24)%nat /\ t = stamp (d0 + Z.of_nat i) h).
    { intros t Ht. unfold hours_index in Ht. apply grid_In in Ht as (k & Hk & ->). exists (k / 24)%nat, (k mod 24)%nat. split; [apply Nat.div_lt_upper_bound; lia|]. split; [apply Nat.mod_upper_bound; lia|].
      unfold stamp, us_day, us_hour. pose proof (Nat.div_mod k 24 ltac:(lia)). lia. }
    assert (EM : mapM (fun t => match mhp_get (month_of t, hour_of t, (n0 <? g t)%num) tbl with Some v => Ok (t, v) | None => Err KeyError end) (hours_index d0 n)
                 = mapM (fun t => match look t with Some v => Ok (t, v) | None => Err KeyError end) (hours_index d0 n)) by reflexivity.
    split.
    - intros (i & h & Hi & Hh & Q).
      assert (K : mapM (fun t => match look t with Some v => Ok (t, v) | None => Err KeyError end) (hours_index d0 n) = Err KeyError).
      { apply mapM_raises; [intros t _; destruct (look t); eauto|]. exists (stamp (d0 + Z.of_nat i) h). split; [|rewrite (EL i h Hi Hh), Q; reflexivity].
        unfold hours_index. apply grid_In. exists (i * 24 + h)%nat. unfold stamp, us_day, us_hour. lia. }
      rewrite <- EM in K. rewrite K. reflexivity.
    - intro H.
      assert (K : mapM (fun t => match look t with Some v => Ok (t, v) | None => Err KeyError end) (hours_index d0 n)
                  = Ok (map (fun t => (t, match look t with Some v => v | None => n_nan end)) (hours_index d0 n))).
      { apply mapM_Ok. intros t Ht. destruct (ST t Ht) as (i & h & Hi & Hh & ->). rewrite (EL i h Hi Hh). specialize (H i h Hi Hh). destruct (entry i h); [reflexivity|congruence]. }
      rewrite <- EM in K. rewrite K. cbn [bind]. eexists. split; [reflexivity|]. split; [rewrite !map_map; apply map_id|].
      intros i h Hi Hh. rewrite clip_values, nth_error_map. rewrite (values_on_map_hours (fun t => match look t with Some v => v | None => n_nan end) d0 n i Hi), nth_error_map.
      rewrite (nth_error_nth' (seq 0 24) h O) by (rewrite seq_length; exact Hh). rewrite seq_nth by exact Hh. cbn [option_map Nat.add]. rewrite (EL i h Hi Hh).
      specialize (H i h Hi Hh). destruct (entry i h); [reflexivity|congruence].
  Qed.
End Generic.

Lemma nan_not_positive (x : float) : n_isnan x = true -> (n0 <? x)%num = false.
Proof. exact (nan_gt 0%float x). Qed.
Lemma nan_clip (x : float) : PrimFloat.is_nan x = true -> PrimFloat.is_nan (clip1 n0 (n_ofZ 100) x) = true.
Proof.
  intro H. unfold clip1. change (n_ltb x n0) with (x <? 0)%float. change (n_ltb (n_ofZ 100) x) with (100 <? x)%float.
  rewrite (nan_gt 100%float x H). assert (N : (x <? 0)%float = false) by (pose proof (nan_prim _ H) as E; rewrite Flocq.IEEE754.PrimFloat.ltb_equiv, E; reflexivity). rewrite N. exact H.
Qed.
Lemma values_on_In (d : Z) (s : list (Z * float)) x : In x (values_on d s) -> In x (map snd s).
Proof. unfold values_on. intro H. apply in_map_iff in H as (p & <- & Hp). apply filter_In in Hp as [Hp _]. apply in_map, Hp. Qed.
Lemma combine_snd_In {A B} (l : list A) (k : list B) x : In x (map snd (combine l k)) -> In x k.
Proof. intro H. apply in_map_iff in H as ((a, b) & <- & Hp). exact (in_combine_r _ _ _ _ Hp). Qed.
Lemma filter_length_le {A} (p : A -> bool) l : (List.length (filter p l) <= List.length l)%nat.
Proof. induction l as [|a l IH]; [cbn; lia|]. cbn. destruct (p a); cbn; lia. Qed.
Lemma rain_on_day sum (precip : list (Z * float)) t : good_total sum -> Z.of_nat (List.length precip) <= 2 ^ 53 -> Forall rain_amount (map snd precip) ->
  (0 <? sum (values_on (date_of t) precip))%float = rain_on precip t.
Proof.
  intros G L F. rewrite (G (values_on (date_of t) precip)).
  - unfold values_on, rain_on, date_of. clear. induction precip as [|p l IH]; [reflexivity|]. cbn [filter existsb]. destruct (fst p / us_day =? t / us_day); cbn [map existsb andb]; rewrite IH; reflexivity.
  - unfold values_on. rewrite map_length. pose proof (filter_length_le (fun p => fst p / us_day =? date_of t) precip). lia.
  - rewrite Forall_forall in *. intros x Hx. apply F, (values_on_In _ _ _ Hx).
Qed.

Lemma Rmean_range v : v <> [] -> (forall x, In x v -> (0 <= x <= 100)%R) -> (0 <= Rmean v <= 100)%R.
Proof.
  intros NE H. assert (P : (0 < INR (List.length v))%R) by (apply lt_0_INR; destruct v; [contradiction|cbn; lia]).
  assert (S : (0 <= Rsum v <= INR (List.length v) * 100)%R).
  { clear NE P. induction v as [|x v IH]; [cbn; lra|]. change (List.length (x :: v)) with (S (List.length v)). rewrite S_INR. unfold Rsum in *. cbn [fold_right].
    specialize (IH ltac:(intros y Hy; apply H; right; exact Hy)). pose proof (H x (or_introl eq_refl)). lra. }
  unfold Rmean, Rdiv. assert (Q : (0 < / INR (List.length v))%R) by (apply Rinv_0_lt_compat; exact P). split; [apply Rmult_le_pos; lra|].
  apply Rmult_le_reg_r with (INR (List.length v)); [exact P|]. rewrite Rmult_assoc, Rinv_l, Rmult_1_r by lra. lra.
Qed.

(** the table: for each class that was observed the mean of its values *)
Theorem C132_table sum mean (d : dframe float) precip hum : good_total sum -> good_month_mean mean ->
  assoc "precip" (f_cols d) = Some precip -> assoc "hum" (f_cols d) = Some hum ->
  List.length precip = List.length (f_index d) -> List.length hum = List.length (f_index d) -> Z.of_nat (List.length (f_index d)) <= 2 ^ 53 ->
  Forall rain_amount precip -> Forall humidity_value hum ->
  exists tbl, classes_any sum mean d = Ok tbl /\
    forall m h wet, let g := class_of (combine (f_index d) precip) (combine (f_index d) hum) m h wet in
      match mhp_get (m, h, wet) tbl with
      | None => g = []
      | Some x => g <> [] /\ (valid_numbers g = [] -> PrimFloat.is_nan x = true) /\
                  (valid_numbers g <> [] -> PrimFloat.is_finite x = true /\ (Rabs (fval x - Rmean (valid_numbers g)) <= 1 / 10 ^ 9)%R)
      end.
Proof.
  intros GT GM EP EH LP LH LI FP FH. set (ps := combine (f_index d) precip).
  assert (LPS : List.length ps = List.length (f_index d)) by (unfold ps; rewrite combine_length, LP; apply Nat.min_id).
  destruct (table_classes sum mean d precip hum (rain_on ps) EP EH LP LH) as (tbl & ET & TB).
  { intros t Ht. apply (rain_on_day sum ps t GT); [rewrite LPS; exact LI|]. rewrite Forall_forall in *. intros x Hx. apply FP, (combine_snd_In _ _ _ Hx). }
  exists tbl. split; [exact ET|]. intros m h wet g. rewrite TB. fold ps.
  change (map snd (filter _ (combine (f_index d) hum))) with g.
  assert (HG : forall x, In x g -> present_or_missing x /\ (PrimFloat.is_finite x = true -> (Rabs (fval x) <= 1000)%R)).
  { intros x Hx. assert (HX : humidity_value x).
    { rewrite Forall_forall in FH. apply FH. apply (combine_snd_In (f_index d)). unfold g, class_of in Hx. apply in_map_iff in Hx as (p & <- & Hp). apply filter_In in Hp as [Hp _]. apply in_map, Hp. }
    destruct HX as [H|[H B]]; [split; [left; exact H|]|split; [right; exact H|]].
    - intro F. rewrite (finite_not_nan x F) in H. discriminate.
    - intros _. rewrite Rabs_pos_eq by lra. lra. }
  destruct (GM g HG) as [G0 G1]. destruct g; [reflexivity|]. split; [discriminate|]. split; assumption.
Qed.
Print Assumptions C132_table.

(** a record and the disaggregation with its table *)
Theorem C132_humidity sum mean saturation wave e (obs : dframe float) precip hum (d : dframe float) d0 n rain temp a0 a1 kr :
  good_total sum -> good_month_mean mean ->
  assoc "precip" (f_cols obs) = Some precip -> assoc "hum" (f_cols obs) = Some hum ->
  List.length precip = List.length (f_index obs) -> List.length hum = List.length (f_index obs) -> Z.of_nat (List.length (f_index obs)) <= 2 ^ 53 ->
  Forall rain_amount precip -> Forall humidity_value hum ->
  n <> O -> f_index d = daily_index d0 n -> assoc "precip" (f_cols d) = Some rain -> List.length rain = n ->
  let class i h := class_of (combine (f_index obs) precip) (combine (f_index obs) hum) (month_of_day (d0 + Z.of_nat i)) (Z.of_nat h) (0 <? nth i rain PrimFloat.nan)%float in
  exists tbl, classes_any sum mean obs = Ok tbl /\
    let result := disaggregate_humidity_gen saturation wave e d "month_hour_precip_mean" temp a0 a1 kr (Some tbl) false in
    ((exists i h, (i < n)%nat /\ (h < 24)%nat /\ class i h = []) -> result = Err KeyError) /\
    ((forall i h, (i < n)%nat -> (h < 24)%nat -> class i h <> []) ->
      exists out, result = Ok out /\ map fst out = hours_index d0 n /\
        forall i h, (i < n)%nat -> (h < 24)%nat -> exists v, nth_error (values_on (d0 + Z.of_nat i) out) h = Some v /\
          (valid_numbers (class i h) = [] -> PrimFloat.is_nan v = true) /\
          (valid_numbers (class i h) <> [] -> percent v /\ (Rabs (fval v - Rmean (valid_numbers (class i h))) <= 1 / 10 ^ 9)%R)).
Proof.
  intros GT GM EP EH LP LH LI FP FH NE FI C L class.
  destruct (C132_table sum mean obs precip hum GT GM EP EH LP LH LI FP FH) as (tbl & ET & TB). exists tbl. split; [exact ET|]. intro result.
  destruct (class_lookup saturation wave e d d0 n rain temp a0 a1 kr tbl nan_float nan_not_positive NE FI C L) as [R1 R2].
  change (n_nan : float) with PrimFloat.nan in R1, R2. fold result in R1, R2.
  set (entry := fun i h => mhp_get (month_of_day (d0 + Z.of_nat i), Z.of_nat h, (0 <? nth i rain PrimFloat.nan)%float) tbl).
  assert (TE : forall i h, match entry i h with
      | None => class i h = []
      | Some x => class i h <> [] /\ (valid_numbers (class i h) = [] -> PrimFloat.is_nan x = true) /\
                  (valid_numbers (class i h) <> [] -> PrimFloat.is_finite x = true /\ (Rabs (fval x - Rmean (valid_numbers (class i h))) <= 1 / 10 ^ 9)%R)
      end) by (intros i h; exact (TB (month_of_day (d0 + Z.of_nat i)) (Z.of_nat h) (0 <? nth i rain PrimFloat.nan)%float)).
  split.
  - intros (i & h & Hi & Hh & Q). apply R1. exists i, h. split; [exact Hi|]. split; [exact Hh|]. change (entry i h = None).
    specialize (TE i h). destruct (entry i h); [|reflexivity]. destruct TE as [X _]. contradiction.
  - intro H. destruct R2 as (out & EO & EI & V).
    { intros i h Hi Hh. change (entry i h <> None). specialize (TE i h). specialize (H i h Hi Hh). destruct (entry i h); [discriminate|contradiction]. }
    exists out. split; [exact EO|]. split; [exact EI|]. intros i h Hi Hh. rewrite (V i h Hi Hh). change (mhp_get _ tbl) with (entry i h).
    specialize (TE i h). specialize (H i h Hi Hh). destruct (entry i h) as [x|]; [|contradiction]. cbn [option_map]. eexists. split; [reflexivity|]. destruct TE as (_ & T0 & T1). split.
    + intro Q. apply nan_clip, T0, Q.
    + intro Q. destruct (T1 Q) as [FX EX]. apply ffin_spec in FX. destruct (clip_f x FX) as [FC VC]. destruct hundred as [F1 V1].
      assert (B : (0 <= fval (clip1 n0 (n_ofZ 100) x) <= 100)%R) by (rewrite VC; apply to_percent_range).
      split; [unfold percent; apply andb_true_iff; split; [apply (leb_true _ _ ffin_zero FC); exact (proj1 B)|apply (leb_true _ _ FC F1); rewrite V1; exact (proj2 B)]|].
      rewrite VC. replace (Rmean (valid_numbers (class i h))) with (to_percent (Rmean (valid_numbers (class i h)))); [apply to_percent_lip; exact EX|].
      assert (M : (0 <= Rmean (valid_numbers (class i h)) <= 100)%R).
      { apply Rmean_range; [exact Q|]. intros r Hr. unfold valid_numbers in Hr. apply in_map_iff in Hr as (y & <- & Hy). apply filter_In in Hy as [Hy NY].
        assert (HY : humidity_value y).
        { rewrite Forall_forall in FH. apply FH. apply (combine_snd_In (f_index obs)). unfold class, class_of in Hy. apply in_map_iff in Hy as (p & <- & Hp). apply filter_In in Hp as [Hp _]. apply in_map, Hp. }
        destruct HY as [HY|[_ HY]]; [rewrite HY in NY; discriminate|exact HY]. }
      unfold to_percent. rewrite Rmax_right, Rmin_right by lra. reflexivity.
Qed.
Print Assumptions C132_humidity.

(** adding from left to right is such a sum *)
Lemma million_cap : (1000000 <= cap)%R.
Proof.
  unfold cap. apply Rle_trans with (bpow radix2 20); [cbn; lra|apply bpow_le; lia].
Qed.
Lemma running_total l : forall acc k, (0 <= k)%Z -> (k + Z.of_nat (List.length l) <= 2 ^ 53)%Z -> fnn acc -> (fval acc <= IZR k * cap)%R ->
  (forall x, In x l -> ffin x /\ (0 <= fval x <= 1000000)%R) ->
  let s := fold_left n_add l acc in ffin s /\ ((0 < fval s)%R <-> (0 < fval acc)%R \/ exists x, In x l /\ (0 < fval x)%R).
Proof.
  pose proof million_cap as MC.
  induction l as [|x l IH]; intros acc k K0 K1 A AC H s; [split; [exact (proj1 A)|]; split; [auto|intros [B|(x & [] & _)]; exact B]|].
  assert (HX : ffin x /\ (0 <= fval x <= 1000000)%R) by (apply H; left; reflexivity). assert (NX : fnn x) by (split; tauto).
  change (List.length (x :: l)) with (S (List.length l)) in K1. rewrite Nat2Z.inj_succ in K1.
  destruct (fadd_capped acc x k ltac:(lia) A AC NX ltac:(lra)) as (A1 & A2 & A3 & A4).
  pose proof (fadd_capped_eq acc x k ltac:(lia) A AC NX ltac:(lra)) as A5.
  assert (A6 : (fval x <= fval (acc + x)%float)%R) by (rewrite A5; apply rnd_ge_fval; destruct A as [_ A]; lra).
  destruct (IH (acc + x)%float (k + 1)%Z ltac:(lia) ltac:(lia) A1 A2 ltac:(intros y Hy; apply H; right; exact Hy)) as [F E].
  change s with (fold_left n_add l (acc + x)%float). split; [exact F|]. rewrite E. destruct A as [_ A]. split.
  - intros [B|(y & Hy & B)]; [|right; exists y; split; [right; exact Hy|exact B]].
    destruct (Rle_lt_dec (fval acc) 0) as [C|C]; [|left; exact C]. right. exists x. split; [left; reflexivity|].
    destruct (Rle_lt_dec (fval x) 0) as [D|D]; [|exact D]. exfalso. rewrite A4 in B by lra. lra.
  - intros [B|(y & [<-|Hy] & B)]; [left; lra|left; lra|right; exists y; auto].
Qed.
Example C132_total_exists : good_total nansum.
Proof.
  intros l L F.
  assert (V : forall x, In x (valid l) -> ffin x /\ (0 <= fval x <= 1000000)%R).
  { intros x Hx. unfold valid in Hx. apply filter_In in Hx as [Hx NX]. change (n_isnan x) with (PrimFloat.is_nan x) in NX. rewrite Forall_forall in F. destruct (F x Hx) as [H|[H B]]; [rewrite H in NX; discriminate|]. split; [apply ffin_spec; exact H|exact B]. }
  destruct (running_total (valid l) 0%float 0 ltac:(lia)) as [FS E]; [|split; [exact ffin_zero|change (fval 0%float) with 0%R; lra]|change (fval 0%float) with 0%R; lra|exact V|].
  { unfold valid. pose proof (filter_length_le (fun x : float => negb (n_isnan x)) l). lia. }
  change (fold_left n_add (valid l) 0%float) with (nansum l) in FS, E. change (fval 0%float) with 0%R in E.
  apply eq_true_iff_eq. rewrite existsb_exists.
  assert (P : forall x, ffin x -> (0 <? x)%float = true <-> (0 < fval x)%R).
  { intros x Fx. destruct (fltb_correct 0%float x ffin_zero Fx) as [Q|Q]; change (fval 0%float) with 0%R in Q; split; intro; try assumption; try reflexivity; try discriminate; contradiction. }
  rewrite (P _ FS), E. split.
  - intros [Q|(x & Hx & Q)]; [lra|]. exists x. destruct (V x Hx) as [Fx _]. split; [unfold valid in Hx; apply filter_In in Hx; tauto|apply P; assumption].
  - intros (x & Hx & Q). right. exists x. assert (HV : In x (valid l)).
    { unfold valid. apply filter_In. split; [exact Hx|]. destruct (n_isnan x) eqn:N; [|reflexivity]. change (n_isnan x) with (PrimFloat.is_nan x) in N. rewrite (nan_gt 0%float x N) in Q. discriminate. }
    split; [exact HV|]. apply P; [apply V, HV|exact Q].
Qed.
(** a dry day of January with humidity 50 in every hour: the table serves every dry January day, and no wet one *)
Definition dry_record : dframe float :=
  {| f_index := hours_index 0 1; f_cols := [("precip", repeat 0%float 24); ("hum", repeat 50%float 24)]%string |}.
Example C132_met :
  List.length (repeat 0%float 24) = List.length (f_index dry_record) /\ Forall rain_amount (repeat 0%float 24) /\ Forall humidity_value (repeat 50%float 24) /\
  let class h wet := class_of (combine (hours_index 0 1) (repeat 0%float 24)) (combine (hours_index 0 1) (repeat 50%float 24)) 1 (Z.of_nat h) wet in
  forall h, (h < 24)%nat -> In 50%float (class h false) /\ class h true = [].
Proof.
  assert (V : fval 50%float = 50%R) by (unfold fval; vm_compute; lra). split; [reflexivity|]. split; [|split].
  - apply Forall_forall. intros x Hx. apply repeat_spec in Hx. subst x. right. split; [reflexivity|]. change (fval 0%float) with 0%R. lra.
  - apply Forall_forall. intros x Hx. apply repeat_spec in Hx. subst x. right. split; [reflexivity|]. rewrite V. lra.
  - intros class h Hh.
    assert (D : forall t, rain_on (combine (hours_index 0 1) (repeat 0%float 24)) t = false).
    { intro t. unfold rain_on. apply not_true_iff_false. intro X. apply existsb_exists in X as ((u, x) & Hx & Q). apply in_combine_r, repeat_spec in Hx. subst x. cbn [fst snd] in Q.
      change (0 <? 0)%float with false in Q. rewrite andb_false_r in Q. discriminate. }
    unfold class, class_of. split.
    + apply in_map_iff. exists (stamp 0 h, 50%float). split; [reflexivity|]. apply filter_In. split.
      * assert (EC : combine (hours_index 0 1) (repeat 50%float 24) = map (fun t => (t, 50%float)) (hours_index 0 1)) by reflexivity. rewrite EC.
        apply (in_map (fun t => (t, 50%float))). unfold hours_index. apply grid_In. exists h. unfold stamp, us_day, us_hour. lia.
      * cbn [fst]. rewrite D, stamp_month, stamp_hour by exact Hh. rewrite (Z.eqb_refl (Z.of_nat h)). reflexivity.
    + match goal with |- map snd (filter ?f ?l) = [] => assert (X : filter f l = []) end; [|rewrite X; reflexivity].
      induction (combine (hours_index 0 1) (repeat 50%float 24)) as [|p l IH]; [reflexivity|]. cbn [filter]. rewrite D. cbn [Bool.eqb]. rewrite andb_false_r. exact IH.
Qed.
