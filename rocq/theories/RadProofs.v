(** Proofs about the radiation model: scaling, Angstroem, Bristow-Campbell. *)
From Coq Require Import String ZArith List Bool Reals Lia Lra Sorted.
From Verif Require Import Py Num Cal Series Trans UtilModel UtilModel2 Frame TempModel RadModel SpecBase SpecUtil SpecTemp SpecRad
  TimeProofs IndexProofs DaysProofs InterpProofs CourseProofs TempProofs TempCourse.
Import ListNotations.
Open Scope Z_scope.

Lemma ffill_last_le (s : series xr) : forall t acc, last_le t s (Some acc) = Some (lookup_ffill t s acc).
Proof. induction s as [|[u v] s IH]; intros t acc; [reflexivity|]. cbn [last_le lookup_ffill]. destruct (u <=? t); [apply IH|reflexivity]. Qed.
Lemma ffill_daily d0 (l : list xr) i h acc : (i < length l)%nat -> (h < 24)%nat ->
  lookup_ffill (stamp (d0 + Z.of_nat i) h) (daily d0 l) acc = nth i l NaN.
Proof.
  intros Hi Hh. pose proof (ffill_last_le (daily d0 l) (stamp (d0 + Z.of_nat i) h) acc) as E.
  rewrite last_le_daily in E by assumption. rewrite (nth_error_nth' l i NaN Hi) in E. congruence.
Qed.

Lemma resample_daily agg d0 n (s : series xr) : map fst s = hours_index d0 n ->
  resample us_day agg s = daily d0 (map (fun i => agg (values_on (d0 + Z.of_nat i) s)) (seq 0 n)).
Proof. intro E. rewrite (resample_hours agg d0 n s E), daily_seq. reflexivity. Qed.

Lemma scale_index pot a b : map fst (scale pot a b) = map fst pot.
Proof. unfold scale. rewrite map_map. reflexivity. Qed.

Lemma scale_day pot d0 n gl i : map fst pot = hours_index d0 n -> length gl = n -> (i < n)%nat ->
  values_on (d0 + Z.of_nat i) (scale pot (resample us_day nanmean pot) (daily d0 gl))
  = map (fun x => cut (x / nanmean (values_on (d0 + Z.of_nat i) pot) * nth i gl NaN)%num) (values_on (d0 + Z.of_nat i) pot).
Proof.
  intros E L Hi. rewrite (resample_daily nanmean d0 n pot E).
  set (pd := daily d0 _). unfold scale, values_on.
  assert (G : forall s, (forall p, In p s -> In (fst p) (hours_index d0 n)) ->
    map snd (filter (fun p => fst p / us_day =? d0 + Z.of_nat i)
               (map (fun p => (fst p, cut (snd p / lookup_ffill (fst p) pd NaN * lookup_ffill (fst p) (daily d0 gl) NaN)%num)) s))
    = map (fun x => cut (x / nanmean (values_on (d0 + Z.of_nat i) pot) * nth i gl NaN)%num)
        (map snd (filter (fun p => fst p / us_day =? d0 + Z.of_nat i) s))).
  { induction s as [|[t x] s IH]; intro H; [reflexivity|]. cbn [map filter fst].
    assert (IH' := IH (fun p Hp => H p (or_intror Hp))).
    destruct (Z.eqb_spec (t / us_day) (d0 + Z.of_nat i)) as [Q|Q]; [|exact IH']. cbn [map snd fst]. rewrite IH'. f_equal.
    specialize (H (t, x) (or_introl eq_refl)). cbn [fst] in H. apply in_hours in H as (j & h & Hj & Hh & ->).
    pose proof (stamp_date (d0 + Z.of_nat j) h Hh) as SD. unfold date_of in SD. rewrite SD in Q. assert (j = i) by lia. subst j.
    unfold pd. rewrite !ffill_daily by (rewrite ?map_length, ?seq_length; assumption || lia).
    set (F := fun k => nanmean (values_on (d0 + Z.of_nat k) pot)).
    rewrite (nth_indep (map F (seq 0 n)) NaN (F O)) by (rewrite map_length, seq_length; lia).
    rewrite (map_nth F), seq_nth by lia. reflexivity. }
  rewrite (G pot); [reflexivity|]. intros p Hp. rewrite <- E. apply in_map, Hp.
Qed.

Lemma cut_xr x : cut (Fin x) = Fin (cut_R x).
Proof. unfold cut, cut_R. rewrite lit_xr by lia. change (10 ^ 2) with 100. rewrite xltb_Fin. unfold Rltb. destruct (Rlt_dec x (1 / 100)); reflexivity. Qed.

(** a day with potential radiation p and daily mean g *)
Lemma scaled_day p g : p <> [] -> (Rmean p <> 0)%R ->
  map (fun x => cut (x / nanmean (map Fin p) * Fin g)%num) (map Fin p) = map Fin (scaled p g).
Proof.
  intros NE HM. rewrite nanmean_numeric by (apply numeric_Fin || (rewrite fins_Fin; exact NE)). rewrite fins_Fin.
  unfold scaled. rewrite !map_map. apply map_ext. intro x. rewrite xdiv_Fin by exact HM. rewrite xmul_Fin. apply cut_xr.
Qed.
Lemma Rmean_pos_nonempty p : (Rmean p <> 0)%R -> p <> [].
Proof. intros H ->. apply H. unfold Rmean, Rsum. cbn. lra. Qed.

Lemma cut_R_bounds y : (0 <= y)%R -> (0 <= cut_R y <= y)%R /\ (y - 1 / 100 < cut_R y)%R.
Proof. intro H. unfold cut_R. destruct (Rlt_dec y (1 / 100)); lra. Qed.

Lemma Rsum_map_mul {A} (f : A -> R) c l : Rsum (map (fun x => f x * c)%R l) = (Rsum (map f l) * c)%R.
Proof. unfold Rsum. induction l as [|x l IH]; cbn; [lra|]. rewrite IH. lra. Qed.
Lemma Rsum_le {A} (f g : A -> R) l : (forall x, In x l -> (f x <= g x)%R) -> (Rsum (map f l) <= Rsum (map g l))%R.
Proof.
  unfold Rsum. induction l as [|x l IH]; intro H; cbn; [lra|]. pose proof (H x (or_introl eq_refl)).
  specialize (IH (fun y Hy => H y (or_intror Hy))). lra.
Qed.
Lemma Rsum_lt {A} (f g : A -> R) l : l <> [] -> (forall x, In x l -> (f x < g x)%R) -> (Rsum (map f l) < Rsum (map g l))%R.
Proof.
  intros NE H. destruct l as [|x l]; [contradiction|]. unfold Rsum. cbn. pose proof (H x (or_introl eq_refl)).
  assert (Rsum (map f l) <= Rsum (map g l))%R by (apply Rsum_le; intros y Hy; left; apply H; right; exact Hy). unfold Rsum in *. lra.
Qed.
Lemma Rsum_scale p g : p <> [] -> (Rmean p <> 0)%R -> Rsum (map (fun x => x / Rmean p * g)%R p) = (INR (length p) * g)%R.
Proof.
  intros NE HM. rewrite (map_ext _ (fun x => x * (g / Rmean p))%R) by (intro; unfold Rdiv; lra).
  rewrite (Rsum_map_mul (fun x => x)), map_id.
  assert (L : (0 < INR (length p))%R) by (apply lt_0_INR; destruct p; [contradiction|cbn; lia]).
  assert (E : Rsum p = (Rmean p * INR (length p))%R) by (unfold Rmean; field; lra). rewrite E. field. exact HM.
Qed.
Lemma scaled_mean p g : (forall x, In x p -> (0 <= x)%R) -> (0 < Rmean p)%R -> (0 <= g)%R ->
  (forall v, In v (scaled p g) -> (0 <= v)%R) /\ (g - 1 / 100 < Rmean (scaled p g) <= g)%R.
Proof.
  intros HP HM HG. assert (NE : p <> []) by (apply Rmean_pos_nonempty; lra).
  assert (NN : forall x, In x p -> (0 <= x / Rmean p * g)%R).
  { intros x Hx. specialize (HP x Hx). apply Rmult_le_pos; [|exact HG]. apply Rmult_le_pos; [exact HP|]. left. apply Rinv_0_lt_compat, HM. }
  assert (L : (0 < INR (length p))%R) by (apply lt_0_INR; destruct p; [contradiction|cbn; lia]).
  split.
  - intros v Hv. apply in_map_iff in Hv as (x & <- & Hx). apply cut_R_bounds, NN, Hx.
  - unfold Rmean at 1 2. unfold scaled at 1 2 3 4. rewrite map_length.
    assert (A1 : (Rsum (map (fun x => cut_R (x / Rmean p * g)) p) <= INR (length p) * g)%R).
    { rewrite <- (Rsum_scale p g NE) by lra. apply Rsum_le. intros x Hx. apply cut_R_bounds, NN, Hx. }
    assert (A2 : (INR (length p) * g - INR (length p) * (1 / 100) < Rsum (map (fun x => cut_R (x / Rmean p * g)) p))%R).
    { rewrite <- (Rsum_scale p g NE) by lra.
      assert (Q : (Rsum (map (fun x => x / Rmean p * g)%R p) - INR (length p) * (1 / 100) = Rsum (map (fun x => x / Rmean p * g - 1 / 100)%R p))%R).
      { generalize (Rmean p). intro m. clear. unfold Rsum. induction p as [|x p IH]; [cbn; lra|]. cbn [map fold_right length]. rewrite S_INR. lra. }
      rewrite Q. apply Rsum_lt; [exact NE|]. intros x Hx. apply cut_R_bounds, NN, Hx. }
    split.
    + apply Rmult_lt_reg_r with (INR (length p)); [exact L|]. unfold Rdiv at 2. rewrite Rmult_assoc, Rinv_l by lra. lra.
    + apply Rmult_le_reg_r with (INR (length p)); [exact L|]. unfold Rdiv. rewrite Rmult_assoc, Rinv_l by lra. lra.
Qed.
Lemma scaled_exact p g : (Rmean p <> 0)%R -> (forall x, In x p -> (x / Rmean p * g = 0 \/ 1 / 100 <= x / Rmean p * g)%R) -> Rmean (scaled p g) = g.
Proof.
  intros HM H. assert (NE : p <> []) by (apply Rmean_pos_nonempty; lra).
  assert (L : (0 < INR (length p))%R) by (apply lt_0_INR; destruct p; [contradiction|cbn; lia]).
  unfold Rmean at 1. unfold scaled. rewrite map_length.
  rewrite (map_ext_in _ (fun x => x / Rmean p * g)%R).
  - rewrite Rsum_scale by assumption. field. lra.
  - intros x Hx. unfold cut_R. destruct (Rlt_dec _ _); [|reflexivity]. destruct (H x Hx); lra.
Qed.
Lemma scaled_nonpos p g : (forall x, In x p -> (0 <= x)%R) -> (0 < Rmean p)%R -> (g <= 0)%R -> scaled p g = map (fun _ => 0%R) p.
Proof.
  intros HP HM HG. unfold scaled. apply map_ext_in. intros x Hx. specialize (HP x Hx). unfold cut_R. destruct (Rlt_dec _ _) as [|N]; [reflexivity|]. exfalso. apply N.
  assert (0 <= x / Rmean p)%R by (apply Rmult_le_pos; [exact HP|]; left; apply Rinv_0_lt_compat, HM). nra.
Qed.

(** ** the four methods on consecutive days *)
Lemma day_frame_hours e d d0 n : day_frame d d0 n -> hourly_index e (f_index d) = Ok (hours_index d0 n).
Proof. intros [NE ->]. destruct n; [contradiction|]. apply hourly_index_daily. Qed.
Lemma column_daily d d0 n name l : day_frame d d0 n -> has_column d name l -> fcol name d = Ok (daily d0 l) /\ length l = n.
Proof.
  intros [NE E] [A L]. rewrite E in L. unfold daily_index in L. rewrite grid_length in L. split; [|exact L].
  unfold fcol. rewrite A, E. unfold daily. rewrite L. reflexivity.
Qed.
Lemma daily_reindex_ok d0 (l : list xr) : has_dup (index (daily d0 l)) || negb (is_increasing (index (daily d0 l))) = false.
Proof. unfold index. rewrite daily_fst, daily_has_dup. unfold daily_index. rewrite grid_increasing by (unfold us_day; lia). reflexivity. Qed.

Lemma rad_pot e d d0 n gl st pot ps1 ps2 mc : day_frame d d0 n -> has_column d "glob" gl ->
  disaggregate_radiation e d st (Some pot) "pot_rad" ps1 ps2 mc = Ok (scale pot (resample us_day nanmean pot) (daily d0 gl)).
Proof.
  intros F C. destruct (column_daily d d0 n "glob" gl F C) as [EC L]. unfold disaggregate_radiation. cbn [String.eqb Ascii.eqb Bool.eqb orb negb].
  rewrite (day_frame_hours e d d0 n F). cbn [bind]. rewrite EC. cbn [bind]. rewrite daily_reindex_ok. reflexivity.
Qed.
Lemma rad_course e d d0 n gl st pot ps1 ps2 c f : day_frame d d0 n -> has_column d "glob" gl -> has_course c d0 n f ->
  let pot' := map (fun t => (t, Fin (course_val f t))) (hours_index d0 n) in
  disaggregate_radiation e d st pot "mean_course" ps1 ps2 (Some c) = Ok (scale pot' (resample us_day nanmean pot') (daily d0 gl)).
Proof.
  intros F C HC. destruct (column_daily d d0 n "glob" gl F C) as [EC L]. cbv zeta. unfold disaggregate_radiation. cbn [String.eqb Ascii.eqb Bool.eqb orb negb].
  rewrite (day_frame_hours e d d0 n F). cbn [bind]. rewrite (course_at_ok c d0 n f HC). cbn [bind]. rewrite EC. cbn [bind]. rewrite daily_reindex_ok.
  assert (Q : combine (hours_index d0 n) (map (fun t => Fin (course_val f t)) (hours_index d0 n)) = map (fun t => (t, Fin (course_val f t))) (hours_index d0 n))
    by (rewrite <- (map_id (hours_index d0 n)) at 1; rewrite combine_maps; reflexivity).
  rewrite Q. reflexivity.
Qed.

Lemma params_at_ok ps fa fb t : params_for ps fa fb -> params_at ps t = Ok (fa (month_of t), fb (month_of t)).
Proof.
  intro H. pose proof (month_range (date_of t)) as R. unfold month_of. destruct ps as [a b|la lb]; cbn [params_at params_for] in *.
  - destruct (H _ R) as [-> ->]. reflexivity.
  - destruct (H _ R) as [H1 H2]. rewrite entry_lookup in H1, H2. unfold month_param, month_of. rewrite H1, H2. reflexivity.
Qed.

Lemma lookup_filter_daily {A B} (P : A -> bool) (g : Z -> A -> B) (rows : list A) d0 i a : nth_error rows i = Some a ->
  lookup ((d0 + Z.of_nat i) * us_day) (map (fun p => (fst p, g (fst p) (snd p))) (filter (fun p => P (snd p)) (daily d0 rows)))
  = if P a then Some (g ((d0 + Z.of_nat i) * us_day) a) else None.
Proof.
  revert d0 i. induction rows as [|x rows IH]; intros d0 i H; [destruct i; discriminate|]. rewrite daily_cons. cbn [filter snd].
  destruct i as [|i].
  - injection H as ->. replace (d0 + Z.of_nat 0) with d0 by lia. destruct (P a); cbn [map fst snd lookup]; [rewrite Z.eqb_refl; reflexivity|].
    apply lookup_none. intro HI. rewrite map_map in HI. cbn [fst] in HI. apply in_map_iff in HI as (p & Q & HI). apply filter_In in HI as [HI _].
    assert (HF : In (fst p) (map fst (daily (d0 + 1) rows))) by (apply in_map, HI). rewrite daily_fst in HF. apply grid_In in HF as (k & _ & E). rewrite E in Q. unfold us_day in Q. lia.
  - cbn [nth_error] in H. replace (d0 + Z.of_nat (S i)) with (d0 + 1 + Z.of_nat i) by lia. destruct (P x); cbn [map fst snd lookup]; [|apply IH, H].
    destruct (Z.eqb_spec (d0 * us_day) ((d0 + 1 + Z.of_nat i) * us_day)) as [Q|Q]; [unfold us_day in Q; lia|apply IH, H].
Qed.

Lemma sun_rows (st : sun_table) d0 n : map fst st = daily_index d0 n -> st = daily d0 (map snd st).
Proof.
  intro E. unfold daily. rewrite map_length, <- (map_length fst), E. unfold daily_index. rewrite grid_length. fold (daily_index d0 n). rewrite <- E.
  clear. induction st as [|[t r] st IH]; [reflexivity|]. cbn. f_equal. exact IH.
Qed.

Lemma at_label_daily d0 (l : list xr) i : (i < length l)%nat -> at_label (daily d0 l) ((d0 + Z.of_nat i) * us_day) = Ok (nth i l NaN).
Proof. intro H. unfold at_label. rewrite lookup_daily, (nth_error_nth' l i NaN H). reflexivity. Qed.

Lemma rad_ssd e d d0 n ssd (st : sun_table) pot ps1 fa fb ps2 mc : day_frame d d0 n -> has_column d "ssd" ssd ->
  map fst st = daily_index d0 n -> map fst pot = hours_index d0 n -> params_for ps1 fa fb ->
  disaggregate_radiation e d (Some st) (Some pot) "pot_rad_via_ssd" ps1 ps2 mc
  = Ok (scale pot (resample us_day nanmean pot)
         (daily d0 (map (fun i => let dl := nth i (map (fun p => daylength (snd p)) st) NaN in
                                  let m := month_of_day (d0 + Z.of_nat i) in
                                  if (dl >? n0)%num then angstroem1 (nth i ssd NaN) dl (nanmean (values_on (d0 + Z.of_nat i) pot)) (fa m) (fb m)
                                  else n0) (seq 0 n)))).
Proof.
  intros F C ES EP HP. destruct (column_daily d d0 n "ssd" ssd F C) as [EC L]. unfold disaggregate_radiation. cbn [String.eqb Ascii.eqb Bool.eqb orb negb].
  rewrite (day_frame_hours e d d0 n F). cbn [bind]. rewrite EC. cbn [bind].
  rewrite (resample_daily nanmean d0 n pot EP). set (pm := fun i => nanmean (values_on (d0 + Z.of_nat i) pot)). change (map (fun i => nanmean (values_on (d0 + Z.of_nat i) pot)) (seq 0 n)) with (map pm (seq 0 n)).
  set (P := fun r => (daylength r >? n0)%num).
  assert (LS : length st = n) by (rewrite <- (map_length fst), ES; apply grid_length).
  set (row := fun t (r : sun_row) => (nth (Z.to_nat (date_of t - d0)) ssd NaN, daylength r, pm (Z.to_nat (date_of t - d0)))).
  set (G := fun t r => match row t r with (s, dl, q) => angstroem1 s dl q (fa (month_of t)) (fb (month_of t)) end).
  assert (LAB : forall p, In p st -> exists i, (i < n)%nat /\ fst p = (d0 + Z.of_nat i) * us_day).
  { intros p Hp. assert (HF : In (fst p) (map fst st)) by (apply in_map, Hp). rewrite ES in HF. apply grid_In in HF as (i & Hi & E). exists i. split; [exact Hi|]. rewrite E. ring. }
  assert (NTH : forall i, Z.to_nat (date_of ((d0 + Z.of_nat i) * us_day) - d0) = i) by (intro i; rewrite day_start_date; lia).
  rewrite (mapM_Ok _ (fun p => (fst p, row (fst p) (snd p)))).
  2:{ intros p Hp. apply filter_In in Hp as [Hp _]. destruct (LAB p Hp) as (i & Hi & E). rewrite E. rewrite at_label_daily by lia. cbn [bind].
      rewrite at_label_daily by (rewrite map_length, seq_length; exact Hi). cbn [bind]. unfold row. rewrite NTH. do 3 f_equal.
      rewrite (nth_indep _ NaN (pm O)) by (rewrite map_length, seq_length; lia). rewrite (map_nth pm), seq_nth by lia. reflexivity. }
  cbn [bind]. unfold angstroem. rewrite mapM_map.
  rewrite (mapM_Ok _ (fun p => (fst p, G (fst p) (snd p)))).
  2:{ intros p _. unfold G, row. rewrite (params_at_ok ps1 fa fb (fst p) HP). reflexivity. }
  cbn [bind]. destruct F as [NE FI]. rewrite FI.
  assert (EV : map (fun t => (t, match lookup t (map (fun p => (fst p, G (fst p) (snd p)))
                       (filter (fun p => (daylength (snd p) >? n0)%num) st)) with Some v => v | None => n0 end)) (daily_index d0 n)
    = daily d0 (map (fun i => let dl := nth i (map (fun p => daylength (snd p)) st) NaN in let m := month_of_day (d0 + Z.of_nat i) in
           if (dl >? n0)%num then angstroem1 (nth i ssd NaN) dl (pm i) (fa m) (fb m) else n0) (seq 0 n))).
  { rewrite daily_seq. unfold daily_index, grid. rewrite map_map. apply map_ext_in. intros i Hi. apply in_seq in Hi.
    replace (d0 * us_day + Z.of_nat i * us_day) with ((d0 + Z.of_nat i) * us_day) by ring. f_equal.
    rewrite (sun_rows st d0 n ES) at 1.
    assert (HR : exists r, nth_error (map snd st) i = Some r) by (destruct (nth_error (map snd st) i) as [r|] eqn:E; [eauto|apply nth_error_None in E; rewrite map_length in E; lia]).
    destruct HR as (r & HR).
    pose proof (lookup_filter_daily P G (map snd st) d0 i r HR) as LF. unfold P at 1 in LF. rewrite LF.
    assert (ED : nth i (map (fun p => daylength (snd p)) st) NaN = daylength r).
    { rewrite <- (map_map snd daylength). rewrite (nth_indep _ NaN (daylength r)) by (rewrite !map_length; lia). rewrite (map_nth daylength). f_equal.
      apply nth_error_nth, HR. }
    rewrite ED. cbv zeta. unfold P, G, row. rewrite NTH. unfold month_of. rewrite day_start_date. destruct (daylength r >? n0)%num; reflexivity. }
  rewrite EV. rewrite daily_reindex_ok. reflexivity.
Qed.
