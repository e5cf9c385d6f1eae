(** Property C138: radiation from sunshine duration where sun times or sunshine do not fit. *)
From Coq Require Import String ZArith List Bool Lia Reals Lra Sorted.
From Verif Require Import Py Num Cal Series UtilModel UtilModel2 Trans Frame TempModel RadModel SpecBase SpecUtil SpecTemp SpecRad TimeProofs IndexProofs
  DaysProofs SunProofs CourseProofs TempProofs TempCourse RadProofs RadBC RadPot RadStats PropsRad SpecSunDays.
Import ListNotations.
Open Scope string_scope.
Open Scope Z_scope.
Open Scope list_scope.

Lemma lookup_filter {A B} (P : A -> bool) (g : Z -> A -> B) (rows : list (Z * A)) t : NoDup (map fst rows) ->
  lookup t (map (fun p => (fst p, g (fst p) (snd p))) (filter (fun p => P (snd p)) rows))
  = match lookup t rows with Some a => if P a then Some (g t a) else None | None => None end.
Proof.
  induction rows as [|[u a] rows IH]; intro ND; [reflexivity|]. inversion ND as [|x l NI ND']; subst. specialize (IH ND').
  cbn [filter lookup snd fst]. destruct (Z.eqb_spec u t) as [->|N].
  - destruct (P a); cbn [map fst snd lookup]; [rewrite Z.eqb_refl; reflexivity|]. rewrite IH.
    replace (lookup t rows) with (@None A); [reflexivity|]. symmetry. rewrite <- entry_lookup.
    destruct (entry_of t rows) as [b|] eqn:E; [exfalso|reflexivity]. apply NI. rewrite entry_lookup in E. clear -E.
    induction rows as [|[v c] rows IH]; [discriminate|]. cbn [lookup] in E. cbn [map fst]. destruct (Z.eqb_spec v t); [left; assumption|right; apply IH; exact E].
  - destruct (P a); cbn [map fst snd lookup]; [rewrite (proj2 (Z.eqb_neq u t) N)|]; exact IH.
Qed.

(** the daily values, day by day *)
Definition value_on (st : sun_table) (ssd : list xr) (pot : series xr) (fa fb : Z -> xr) (d0 : Z) (i : nat) : xr :=
  match light_on st (d0 + Z.of_nat i) with
  | Some dl => let m := month_of_day (d0 + Z.of_nat i) in
      if (dl >? n0)%num then angstroem1 (nth i ssd NaN) dl (nanmean (values_on (d0 + Z.of_nat i) pot)) (fa m) (fb m) else n0
  | None => n0
  end.
Lemma ssd_any_sun e d d0 n ssd (st : sun_table) pot ps1 fa fb ps2 mc : day_frame d d0 n -> has_column d "ssd" ssd ->
  within_days st d0 n -> map fst pot = hours_index d0 n -> params_for ps1 fa fb ->
  disaggregate_radiation e d (Some st) (Some pot) "pot_rad_via_ssd" ps1 ps2 mc
  = Ok (scale pot (resample us_day nanmean pot) (daily d0 (map (value_on st ssd pot fa fb d0) (seq 0 n)))).
Proof.
  intros F C [ND ES] EP HP. destruct (column_daily d d0 n "ssd" ssd F C) as [EC L]. unfold disaggregate_radiation. cbn [String.eqb Ascii.eqb Bool.eqb orb negb].
  rewrite (day_frame_hours e d d0 n F). cbn [bind]. rewrite EC. cbn [bind].
  rewrite (resample_daily nanmean d0 n pot EP). set (pm := fun i => nanmean (values_on (d0 + Z.of_nat i) pot)). change (map (fun i => nanmean (values_on (d0 + Z.of_nat i) pot)) (seq 0 n)) with (map pm (seq 0 n)).
  set (P := fun r => (daylength r >? n0)%num).
  set (row := fun t (r : sun_row) => (nth (Z.to_nat (date_of t - d0)) ssd NaN, daylength r, pm (Z.to_nat (date_of t - d0)))).
  set (G := fun t r => match row t r with (s, dl, q) => angstroem1 s dl q (fa (month_of t)) (fb (month_of t)) end).
  assert (LAB : forall p, In p st -> exists i, (i < n)%nat /\ fst p = (d0 + Z.of_nat i) * us_day).
  { intros p Hp. assert (HF : In (fst p) (map fst st)) by (apply in_map, Hp). apply ES in HF. apply grid_In in HF as (i & Hi & E). exists i. split; [exact Hi|]. rewrite E. ring. }
  assert (NTH : forall i, Z.to_nat (date_of ((d0 + Z.of_nat i) * us_day) - d0) = i) by (intro i; rewrite day_start_date; lia).
  rewrite (mapM_Ok _ (fun p => (fst p, row (fst p) (snd p)))).
  2:{ intros p Hp. apply filter_In in Hp as [Hp _]. destruct (LAB p Hp) as (i & Hi & E). rewrite E. rewrite at_label_daily by lia. cbn [bind].
      rewrite at_label_daily by (rewrite map_length, seq_length; exact Hi). cbn [bind]. unfold row. rewrite NTH. do 3 f_equal.
      rewrite (nth_indep _ NaN (pm O)) by (rewrite map_length, seq_length; lia). rewrite (map_nth pm), seq_nth by lia. reflexivity. }
  cbn [bind]. unfold angstroem. rewrite TempProofs.mapM_map.
  rewrite (mapM_Ok _ (fun p => (fst p, G (fst p) (snd p)))).
  2:{ intros p _. unfold G, row. rewrite (params_at_ok ps1 fa fb (fst p) HP). reflexivity. }
  cbn [bind]. destruct F as [NE FI]. rewrite FI.
  assert (EV : map (fun t => (t, match lookup t (map (fun p => (fst p, G (fst p) (snd p)))
                       (filter (fun p => (daylength (snd p) >? n0)%num) st)) with Some v => v | None => n0 end)) (daily_index d0 n)
    = daily d0 (map (value_on st ssd pot fa fb d0) (seq 0 n))).
  { rewrite daily_seq. unfold daily_index, grid. rewrite map_map. apply map_ext_in. intros i Hi. apply in_seq in Hi.
    replace (d0 * us_day + Z.of_nat i * us_day) with ((d0 + Z.of_nat i) * us_day) by ring. f_equal.
    pose proof (lookup_filter P G st ((d0 + Z.of_nat i) * us_day) ND) as LF. unfold P at 1 in LF. rewrite LF.
    unfold value_on, light_on. change (@entry_of sun_row) with (@lookup sun_row). destruct (lookup _ st) as [r|]; [|reflexivity]. cbn [option_map].
    unfold P, G, row. rewrite NTH. unfold month_of. rewrite day_start_date. destruct (daylength r >? n0)%num; reflexivity. }
  rewrite EV. rewrite daily_reindex_ok. reflexivity.
Qed.
Lemma ssd_hours e d d0 n ssd (st : sun_table) pot ps1 fa fb ps2 mc : day_frame d d0 n -> has_column d "ssd" ssd ->
  within_days st d0 n -> map fst pot = hours_index d0 n -> params_for ps1 fa fb ->
  exists out, disaggregate_radiation e d (Some st) (Some pot) "pot_rad_via_ssd" ps1 ps2 mc = Ok out /\ map fst out = hours_index d0 n /\
    forall i, (i < n)%nat -> let p := values_on (d0 + Z.of_nat i) pot in
      values_on (d0 + Z.of_nat i) out = map (fun x => cut (x / nanmean p * value_on st ssd pot fa fb d0 i)%num) p.
Proof.
  intros F C WD EP HP. eexists. split; [apply (ssd_any_sun e d d0 n ssd st pot ps1 fa fb ps2 mc F C WD EP HP)|]. split; [rewrite scale_index; exact EP|].
  intros i Hi p. rewrite (scale_day pot d0 n (map (value_on st ssd pot fa fb d0) (seq 0 n)) i EP ltac:(rewrite map_length, seq_length; reflexivity) Hi).
  assert (E : nth i (map (value_on st ssd pot fa fb d0) (seq 0 n)) NaN = value_on st ssd pot fa fb d0 i).
  { rewrite (nth_indep _ NaN (value_on st ssd pot fa fb d0 O)) by (rewrite map_length, seq_length; exact Hi). rewrite (map_nth (value_on st ssd pot fa fb d0)), seq_nth by exact Hi. reflexivity. }
  rewrite E. reflexivity.
Qed.

(** sun times for some of the days only: the other days are silently dark, the days that are there come out as ever *)
Theorem C138_some_days e d d0 n ssd (st : sun_table) pot ps1 fa fb ps2 mc :
  day_frame d d0 n -> has_column d "ssd" ssd -> within_days st d0 n -> map fst pot = hours_index d0 n -> params_for ps1 fa fb ->
  exists out, disaggregate_radiation e d (Some st) (Some pot) "pot_rad_via_ssd" ps1 ps2 mc = Ok out /\ map fst out = hours_index d0 n /\
    forall i p, (i < n)%nat -> values_on (d0 + Z.of_nat i) pot = map Fin p -> (forall x, In x p -> (0 <= x)%R) -> (0 < Rmean p)%R ->
      let w := values_on (d0 + Z.of_nat i) out in let m := month_of_day (d0 + Z.of_nat i) in
      match light_on st (d0 + Z.of_nat i) with
      | None => w = map (fun _ => Fin 0) p
      | Some NaN => w = map (fun _ => Fin 0) p
      | Some (Fin dl) => if Rle_dec dl 0 then w = map (fun _ => Fin 0) p else
          (nth i ssd NaN = NaN -> w = map (fun _ => NaN) p) /\
          (forall s a b, nth i ssd NaN = Fin s -> fa m = Fin a -> fb m = Fin b -> (0 <= a + b * (s / dl))%R ->
             exists q, w = map Fin q /\ shaped p ((a + b * (s / dl)) * Rmean p) q)
      | _ => True
      end.
Proof.
  intros F C WD EP HP. destruct (ssd_hours e d d0 n ssd st pot ps1 fa fb ps2 mc F C WD EP HP) as (out & E & EI & V).
  exists out. split; [exact E|]. split; [exact EI|]. intros i p Hi EV PP PM w m. specialize (V i Hi). cbv zeta in V. fold w in V. rewrite EV in V.
  assert (NP : p <> []) by (apply Rmean_pos_nonempty; lra).
  assert (DARK : value_on st ssd pot fa fb d0 i = n0 -> w = map (fun _ => Fin 0) p).
  { intro Z0. rewrite V, Z0. change (n0 : xr) with (Fin 0). rewrite scaled_day by (exact NP || lra). unfold scaled. rewrite map_map. apply map_ext. intro x. f_equal.
    rewrite Rmult_0_r. unfold cut_R. destruct (Rlt_dec 0 (1 / 100)); lra. }
  unfold value_on in *. destruct (light_on st (d0 + Z.of_nat i)) as [[dl| | |]|]; [|exact I|exact I|apply DARK; reflexivity|apply DARK; reflexivity].
  destruct (Rle_dec dl 0) as [LE|GT].
  - apply DARK. replace (Fin dl >? n0)%num with false; [reflexivity|]. change (Fin dl >? n0)%num with (Fin 0 <? Fin dl)%num. rewrite xltb_Fin. destruct (Rltb_spec 0 dl); [lra|reflexivity].
  - replace (Fin dl >? n0)%num with true in V by (change (Fin dl >? n0)%num with (Fin 0 <? Fin dl)%num; rewrite xltb_Fin; destruct (Rltb_spec 0 dl); [reflexivity|lra]).
    fold m in V. cbv zeta in V. split.
    + intro SN. rewrite SN in V. rewrite V, map_map. apply map_ext. intro x.
      assert (AN : forall q a b, angstroem1 NaN (Fin dl) q a b = NaN) by (intros q a b; unfold angstroem1; destruct b, a, q; reflexivity).
      rewrite AN. destruct (Fin x / nanmean (map Fin p))%num; apply cut_NaN.
    + intros s a b ES EA EB K0. rewrite ES, EA, EB, EV in V. exists (scaled p (angstroem_R a b s dl (Rmean p))).
      assert (AV : angstroem1 (Fin s) (Fin dl) (nanmean (map Fin p)) (Fin a) (Fin b) = Fin (angstroem_R a b s dl (Rmean p))).
      { rewrite nanmean_numeric by (apply numeric_Fin || (rewrite fins_Fin; exact NP)). rewrite fins_Fin. unfold angstroem1. rewrite xmul_Fin, xdiv_Fin by lra. rewrite xadd_Fin, xmul_Fin. f_equal. unfold angstroem_R. field. lra. }
      rewrite AV in V. split; [rewrite V; apply scaled_day; [exact NP|lra]|].
      apply scaled_shaped; [exact PP|exact PM|]. apply Rmult_le_pos; lra.
Qed.
Print Assumptions C138_some_days.

(** sun times with daylight on a day that is not in the daily data *)
Theorem C138_other_days e d d0 n ssd (st : sun_table) pot ps1 ps2 mc :
  day_frame d d0 n -> has_column d "ssd" ssd -> stranger st d0 n ->
  disaggregate_radiation e d (Some st) (Some pot) "pot_rad_via_ssd" ps1 ps2 mc = Err KeyError.
Proof.
  intros F C (t & r & dl & Hp & ED & PD & NI). destruct (column_daily d d0 n "ssd" ssd F C) as [EC L]. unfold disaggregate_radiation. cbn [String.eqb Ascii.eqb Bool.eqb orb negb].
  rewrite (day_frame_hours e d d0 n F). cbn [bind]. rewrite EC. cbn [bind]. set (pd := resample us_day nanmean pot).
  assert (HF : In (t, r) (filter (fun p : Z * sun_row => (daylength (snd p) >? n0)%num) st)).
  { apply filter_In. split; [exact Hp|]. cbn [snd]. rewrite ED. change (Fin dl >? n0)%num with (Fin 0 <? Fin dl)%num. rewrite xltb_Fin. destruct (Rltb_spec 0 dl); [reflexivity|contradiction]. }
  assert (EM : forall l, In (t, r) l -> mapM (fun p => let* s := at_label (daily d0 ssd) (fst p) in let* q := at_label pd (fst p) in Ok (fst p, (s, daylength (snd p), q))) l = Err KeyError).
  { assert (KE : forall s u y, at_label s u = Err y -> y = KeyError) by (intros s u y; unfold at_label; destruct (lookup u s); congruence).
    induction l as [|[u c] l IH]; [intros []|intros [E|H]].
    - injection E as -> ->. cbn [mapM fst]. unfold at_label at 1. rewrite <- entry_lookup.
      destruct (entry_of t (daily d0 ssd)) as [v|] eqn:Q; [exfalso|reflexivity]. apply NI. rewrite <- L. rewrite <- (daily_fst d0 ssd). rewrite entry_lookup in Q. clear -Q.
      induction (daily d0 ssd) as [|[w c] k IH]; [discriminate|]. cbn [lookup] in Q. cbn [map fst]. destruct (Z.eqb_spec w t); [left; assumption|right; apply IH; exact Q].
    - cbn [mapM fst snd]. destruct (at_label (daily d0 ssd) u) as [v|y] eqn:Q1; [|cbn [bind]; rewrite (KE _ _ _ Q1); reflexivity]. cbn [bind].
      destruct (at_label pd u) as [q|y] eqn:Q2; [|cbn [bind]; rewrite (KE _ _ _ Q2); reflexivity]. cbn [bind]. rewrite (IH H). reflexivity. }
  rewrite (EM _ HF). reflexivity.
Qed.
Print Assumptions C138_other_days.

(** more sunshine than daylight lets more through than a + b: with a + b = 1 more than the potential radiation *)
Theorem C138_long_sunshine e d d0 n ssd (st : sun_table) pot ps1 fa fb ps2 mc i p s dl a b :
  day_frame d d0 n -> has_column d "ssd" ssd -> within_days st d0 n -> map fst pot = hours_index d0 n -> params_for ps1 fa fb ->
  (i < n)%nat -> values_on (d0 + Z.of_nat i) pot = map Fin p -> (forall x, In x p -> (0 <= x)%R) -> (0 < Rmean p)%R ->
  nth_error ssd i = Some (Fin s) -> light_on st (d0 + Z.of_nat i) = Some (Fin dl) -> (0 < dl < s)%R ->
  fa (month_of_day (d0 + Z.of_nat i)) = Fin a -> fb (month_of_day (d0 + Z.of_nat i)) = Fin b -> (0 <= a)%R -> (0 < b)%R -> (a + b = 1)%R ->
  exists out, disaggregate_radiation e d (Some st) (Some pot) "pot_rad_via_ssd" ps1 ps2 mc = Ok out /\
    forall h x, nth_error p h = Some x -> (1 / 100 <= x)%R -> exists v, nth_error (values_on (d0 + Z.of_nat i) out) h = Some (Fin v) /\ (x < v)%R.
Proof.
  intros F C WD EP HP Hi EV PP PM ES EL [D0 DS] EA EB A0 B0 AB.
  destruct (C138_some_days e d d0 n ssd st pot ps1 fa fb ps2 mc F C WD EP HP) as (out & E & _ & V). exists out. split; [exact E|].
  specialize (V i p Hi EV PP PM). cbv zeta in V. rewrite EL in V. destruct (Rle_dec dl 0) as [LE|_]; [lra|]. destruct V as [_ V].
  assert (Q : (1 < s / dl)%R) by (apply Rmult_lt_reg_r with dl; [exact D0|]; unfold Rdiv; rewrite Rmult_assoc, Rinv_l by lra; lra).
  assert (K : (1 < a + b * (s / dl))%R) by nra.
  destruct (V s a b (nth_error_nth ssd i NaN ES) EA EB ltac:(lra)) as (q & EW & (LQ & _ & _ & _ & SH)).
  intros h x Hx X0. assert (Hh : (h < length p)%nat) by (apply nth_error_Some; congruence). specialize (SH h Hh). cbv zeta in SH.
  rewrite (nth_error_nth p h 0%R Hx) in SH. set (k := (a + b * (s / dl))%R) in *.
  replace (x / Rmean p * (k * Rmean p))%R with (k * x)%R in SH by (field; lra).
  assert (KX : (x < k * x)%R) by nra. destruct (Rlt_dec (k * x) (1 / 100)) as [LT|_]; [lra|].
  exists (k * x)%R. split; [|exact KX]. rewrite EW, nth_error_map, (nth_error_nth' q h 0%R) by lia. cbn [option_map]. rewrite SH. reflexivity.
Qed.
Print Assumptions C138_long_sunshine.

(** ** the hypotheses can be met: three days from day 100 on, sun times for the first two, the second with more sunshine
    than daylight; and sun times that also know the day after *)
Definition sun_of (dl : R) : sun_row := {| sunrise := Fin 6; sunnoon := Fin 12; sunset := Fin 18; daylength := Fin dl |}.
Definition short_sun : sun_table := [(100 * us_day, sun_of 12); (101 * us_day, sun_of 7)].
Definition shine_frame : dframe xr := {| f_index := daily_index 100 3; f_cols := [("ssd", [NaN; Fin 8; Fin 5])] |}.
Example C138_met : day_frame shine_frame 100 3 /\ has_column shine_frame "ssd" [NaN; Fin 8; Fin 5] /\ within_days short_sun 100 3 /\
  light_on short_sun (100 + Z.of_nat 1) = Some (Fin 7) /\ light_on short_sun (100 + Z.of_nat 2) = None /\
  params_for (PScalar (Fin (1 / 4)) (Fin (3 / 4))) (fun _ => Fin (1 / 4)) (fun _ => Fin (3 / 4)) /\
  stranger (short_sun ++ [(103 * us_day, sun_of 12)]) 100 3.
Proof.
  split; [split; [discriminate|reflexivity]|]. split; [split; reflexivity|]. split; [split|].
  - cbn [map fst short_sun]. constructor; [intros [H|[]]; unfold us_day in H; lia|]. constructor; [intros []|constructor].
  - cbn [map fst short_sun]. intros t [<-|[<-|[]]]; [left; reflexivity|right; left; reflexivity].
  - split; [reflexivity|]. split; [reflexivity|]. split; [intros m _; split; reflexivity|].
    exists (103 * us_day), (sun_of 12), 12%R. split; [right; right; left; reflexivity|]. split; [reflexivity|]. split; [lra|].
    intros H. apply grid_In in H as (j & Hj & E). unfold us_day in E. lia.
Qed.
