(** Proofs about the radiation model: Bristow and Campbell's model. *)
From Coq Require Import String ZArith List Bool Reals Lia Lra Sorted.
From Verif Require Import Py Num Cal Series Trans UtilModel UtilModel2 Frame TempModel RadModel SpecBase SpecUtil SpecTemp SpecRad
  TimeProofs IndexProofs DaysProofs InterpProofs CourseProofs TempProofs TempCourse RadProofs.
Import ListNotations.
Open Scope string_scope.
Open Scope Z_scope.
Open Scope list_scope.

(** ** Bristow-Campbell *)
Lemma zlist_eqb_refl l : zlist_eqb l l = true.
Proof. induction l as [|x l IH]; [reflexivity|]. cbn. rewrite Z.eqb_refl. exact IH. Qed.
Lemma last_daily_index d0 n d : last (daily_index d0 (S n)) d = (d0 + Z.of_nat n) * us_day.
Proof.
  unfold daily_index. replace (S n) with (n + 1)%nat by lia. rewrite grid_app. change (grid _ us_day 1) with [d0 * us_day + Z.of_nat n * us_day + Z.of_nat 0 * us_day].
  rewrite last_last. unfold us_day. lia.
Qed.
Lemma date_range_daily d0 n : date_range (d0 * us_day) ((d0 + Z.of_nat n) * us_day) us_day = daily_index d0 (S n).
Proof.
  rewrite date_range_grid by (unfold us_day; lia). unfold daily_index. f_equal.
  replace ((d0 + Z.of_nat n) * us_day - d0 * us_day) with (Z.of_nat n * us_day) by ring. rewrite Z.div_mul by (unfold us_day; lia). lia.
Qed.
Lemma self_lookup d0 (l : list xr) : map (fun t => (t, match lookup t (daily d0 l) with Some v => v | None => NaN end)) (daily_index d0 (length l)) = daily d0 l.
Proof.
  transitivity (daily d0 (map (fun i => nth i l NaN) (seq 0 (length l)))); [|f_equal; symmetry; apply list_seq].
  rewrite daily_seq. unfold daily_index, grid. rewrite map_map. apply map_ext_in. intros i Hi. apply in_seq in Hi.
  replace (d0 * us_day + Z.of_nat i * us_day) with ((d0 + Z.of_nat i) * us_day) by ring. f_equal. rewrite lookup_daily, (nth_error_nth' l i NaN) by lia. reflexivity.
Qed.
Lemma next_list (l : list xr) : l <> [] ->
  map snd (skipn 1 (daily 0 l)) ++ map snd (skipn (length l - 1) (daily 0 l)) = map (next_day l) (seq 0 (length l)).
Proof.
  intro NE. rewrite <- !skipn_map, daily_snd.
  assert (LP : (0 < length l)%nat) by (destruct l; [contradiction|apply Nat.lt_0_succ]).
  apply nth_ext with (d := NaN) (d' := NaN).
  - rewrite app_length, !skipn_length, map_length, seq_length. lia.
  - intros i Hi. rewrite app_length, !skipn_length in Hi.
    assert (LL : (i < length l)%nat) by lia.
    rewrite (nth_indep (map (next_day l) _) NaN (next_day l O)) by (rewrite map_length, seq_length; exact LL).
    rewrite (map_nth (next_day l)), seq_nth by exact LL. cbn [Nat.add]. unfold next_day.
    assert (NS : forall k j, nth j (skipn k l) NaN = nth (k + j) l NaN).
    { clear. intros k. revert l. induction k as [|k IH]; intros l j; [reflexivity|]. destruct l as [|x l]; [destruct j; reflexivity|]. apply IH. }
    destruct (Nat.eqb_spec (S i) (length l)) as [E|E].
    + rewrite app_nth2 by (rewrite skipn_length; lia). rewrite skipn_length, NS. f_equal. lia.
    + rewrite app_nth1 by (rewrite skipn_length; lia). rewrite NS. reflexivity.
Qed.

Definition dT_x (tmin tmax : list xr) (i : nat) : xr := (nth i tmax NaN - (nth i tmin NaN + next_day tmin i) / n_ofZ 2)%num.
Definition month_avg (tmin tmax : list xr) (d0 m : Z) : xr :=
  nanmean (map snd (filter (fun p => month_of (fst p) =? m) (daily d0 (map (dT_x tmin tmax) (seq 0 (length tmin)))))).

Lemma bc_daily d0 tmin tmax pots ps fa fb : tmin <> [] -> length tmax = length tmin -> length pots = length tmin -> params_for ps fa fb ->
  bristow_campbell ps (daily d0 tmin) (daily d0 tmax) (daily d0 pots)
  = Ok (daily d0 (map (fun i => let m := month_of_day (d0 + Z.of_nat i) in
                                bc1 (fa m) (fb m) (bc_B (month_avg tmin tmax d0 m)) (dT_x tmin tmax i) (nth i pots NaN)) (seq 0 (length tmin)))).
Proof.
  intros NE L1 L2 HP. unfold bristow_campbell. unfold index. rewrite !daily_fst, L1, zlist_eqb_refl. cbn [negb].
  destruct (length tmin) as [|n] eqn:EL; [destruct tmin; [contradiction|discriminate]|].
  rewrite daily_index_S at 1. rewrite (last_daily_index d0 n), date_range_daily, daily_has_dup.
  rewrite <- EL. rewrite self_lookup.
  assert (EN : combine (daily_index d0 (length tmin)) (map snd (skipn 1 (daily d0 tmin)) ++ map snd (skipn (length (daily_index d0 (length tmin)) - 1) (daily d0 tmin)))
               = daily d0 (map (next_day tmin) (seq 0 (length tmin)))).
  { unfold daily_index at 2. rewrite grid_length. unfold daily at 3. rewrite map_length, seq_length. f_equal.
    rewrite <- (next_list tmin NE). rewrite <- !skipn_map, !daily_snd. reflexivity. }
  rewrite EN.
  assert (NT : forall F : nat -> xr, forall i, (i < length tmin)%nat -> nth i (map F (seq 0 (length tmin))) NaN = F i).
  { intros F i Hi. rewrite (nth_indep _ NaN (F O)) by (rewrite map_length, seq_length; exact Hi). rewrite (map_nth F), seq_nth by exact Hi. reflexivity. }
  assert (ER : mapM (fun t => let* n0 := at_label (daily d0 (map (next_day tmin) (seq 0 (length tmin)))) t in
                              let* lo := at_label (daily d0 tmin) t in
                              Ok (t, (match lookup t (daily d0 tmax) with Some v => v | None => NaN end - (lo + n0) / n_ofZ 2)%num)) (daily_index d0 (length tmin))
              = Ok (daily d0 (map (dT_x tmin tmax) (seq 0 (length tmin))))).
  { rewrite (daily_seq (dT_x tmin tmax)). unfold daily_index, grid. rewrite mapM_map. apply mapM_Ok. intros i Hi. apply in_seq in Hi.
    replace (d0 * us_day + Z.of_nat i * us_day) with ((d0 + Z.of_nat i) * us_day) by ring.
    rewrite at_label_daily by (rewrite map_length, seq_length; lia). cbn [bind]. rewrite at_label_daily by lia. cbn [bind].
    rewrite lookup_daily, (nth_error_nth' tmax i NaN) by lia. rewrite NT by lia. reflexivity. }
  rewrite ER. cbn [bind].
  assert (EQ : mapM (fun t => at_label (daily d0 pots) t) (daily_index d0 (length tmin)) = Ok (map (fun i => nth i pots NaN) (seq 0 (length tmin)))).
  { unfold daily_index, grid. rewrite mapM_map. apply mapM_Ok. intros i Hi. apply in_seq in Hi.
    replace (d0 * us_day + Z.of_nat i * us_day) with ((d0 + Z.of_nat i) * us_day) by ring. apply at_label_daily. lia. }
  rewrite EQ. cbn [bind]. 
  assert (EC : combine (daily d0 (map (dT_x tmin tmax) (seq 0 (length tmin)))) (map (fun i => nth i pots NaN) (seq 0 (length tmin)))
               = map (fun i => ((d0 + Z.of_nat i) * us_day, dT_x tmin tmax i, nth i pots NaN)) (seq 0 (length tmin)))
    by (rewrite daily_seq; apply combine_maps).
  rewrite EC, mapM_map.
  match goal with |- _ = Ok (daily d0 (map ?f _)) => rewrite (daily_seq f) end.
  apply mapM_Ok. intros i Hi. rewrite (params_at_ok ps fa fb _ HP). cbn [bind fst snd].
  assert (EM : month_of ((d0 + Z.of_nat i) * us_day) = month_of_day (d0 + Z.of_nat i)) by (unfold month_of; rewrite day_start_date; reflexivity).
  rewrite EM. reflexivity.
Qed.

Lemma rad_bc e d d0 n tmin tmax st pot ps1 ps2 fa fb mc : day_frame d d0 n -> has_column d "tmin" tmin -> has_column d "tmax" tmax ->
  map fst pot = hours_index d0 n -> params_for ps2 fa fb ->
  disaggregate_radiation e d st (Some pot) "pot_rad_via_bc" ps1 ps2 mc
  = Ok (scale pot (resample us_day nanmean pot)
         (daily d0 (map (fun i => let m := month_of_day (d0 + Z.of_nat i) in
                                bc1 (fa m) (fb m) (bc_B (month_avg tmin tmax d0 m)) (dT_x tmin tmax i) (nanmean (values_on (d0 + Z.of_nat i) pot))) (seq 0 n)))).
Proof.
  intros F C1 C2 EP HP. destruct (column_daily d d0 n "tmin" tmin F C1) as [E1 L1]. destruct (column_daily d d0 n "tmax" tmax F C2) as [E2 L2].
  unfold disaggregate_radiation. cbn [String.eqb Ascii.eqb Bool.eqb orb negb]. rewrite (day_frame_hours e d d0 n F). cbn [bind]. rewrite E1, E2. cbn [bind].
  rewrite (resample_daily nanmean d0 n pot EP) at 1. rewrite (bc_daily d0 tmin tmax _ ps2 fa fb).
  - rewrite L1. cbn [bind]. rewrite daily_reindex_ok. do 3 f_equal. apply map_ext_in. intros i Hi. apply in_seq in Hi. cbv zeta. f_equal.
    set (F' := fun k => nanmean (values_on (d0 + Z.of_nat k) pot)).
    rewrite (nth_indep (map F' (seq 0 n)) NaN (F' O)) by (rewrite map_length, seq_length; lia). rewrite (map_nth F'), seq_nth by lia. reflexivity.
  - destruct F as [NE _]. destruct tmin; [cbn in L1; congruence|discriminate].
  - lia.
  - rewrite map_length, seq_length. lia.
  - exact HP.
Qed.

Lemma dT_ok tmin tmax i : numeric tmin -> numeric tmax -> dT_x tmin tmax i = match day_dT tmin tmax i with Some x => Fin x | None => NaN end.
Proof.
  intros N1 N2. assert (G : forall l k, numeric l -> match nth k l NaN with Fin _ | NaN => True | _ => False end).
  { intros l k N. destruct (nth_in_or_default k l NaN) as [H|H]; [|rewrite H; exact I]. unfold numeric in N. rewrite Forall_forall in N. apply N, H. }
  unfold dT_x, day_dT. pose proof (G tmin i N1) as H1. pose proof (G tmax i N2) as H2.
  assert (H3 : match next_day tmin i with Fin _ | NaN => True | _ => False end) by (unfold next_day; destruct (Nat.eqb _ _); apply G, N1).
  destruct (nth i tmin NaN), (next_day tmin i), (nth i tmax NaN); try contradiction; try reflexivity.
  rewrite xadd_Fin. cbn [n_ofZ Num_xr]. rewrite xdiv_Fin by lra. reflexivity.
Qed.
Lemma month_avg_ok tmin tmax d0 m : numeric tmin -> numeric tmax ->
  month_avg tmin tmax d0 m = match month_dT tmin tmax d0 m with [] => NaN | l => Fin (Rmean l) end.
Proof.
  intros N1 N2. unfold month_avg.
  assert (E : daily d0 (map (dT_x tmin tmax) (seq 0 (length tmin))) = map (fun i => ((d0 + Z.of_nat i) * us_day, match day_dT tmin tmax i with Some x => Fin x | None => NaN end)) (seq 0 (length tmin))).
  { rewrite daily_seq. apply map_ext. intro i. rewrite dT_ok by assumption. reflexivity. }
  rewrite E.
  assert (NU : numeric (map snd (filter (fun p => month_of (fst p) =? m) (map (fun i => ((d0 + Z.of_nat i) * us_day, match day_dT tmin tmax i with Some x => Fin x | None => NaN end)) (seq 0 (length tmin)))))).
  { apply Forall_forall. intros x Hx. apply in_map_iff in Hx as (p & <- & Hp). apply filter_In in Hp as [Hp _]. apply in_map_iff in Hp as (i & <- & _). cbn [snd]. destruct (day_dT tmin tmax i); exact I. }
  assert (FI : fins (map snd (filter (fun p => month_of (fst p) =? m) (map (fun i => ((d0 + Z.of_nat i) * us_day, match day_dT tmin tmax i with Some x => Fin x | None => NaN end)) (seq 0 (length tmin))))) = month_dT tmin tmax d0 m).
  { unfold month_dT. generalize (seq 0 (length tmin)). induction l as [|i l IH]; [reflexivity|]. cbn [map filter flat_map fst]. unfold month_of at 1. rewrite day_start_date.
    destruct (month_of_day (d0 + Z.of_nat i) =? m); cbn [map snd app]; [|exact IH]. unfold fins in *. cbn [flat_map]. rewrite IH. destruct (day_dT tmin tmax i); reflexivity. }
  destruct (month_dT tmin tmax d0 m) as [|a l] eqn:EM.
  - apply nanmean_empty; [exact NU|exact FI].
  - rewrite nanmean_numeric; [rewrite FI; reflexivity|exact NU|rewrite FI; discriminate].
Qed.

Lemma bc1_ok A C avg dt p : (0 < C)%R -> (0 <= dt)%R ->
  bc1 (Fin A) (Fin C) (bc_B (Fin avg)) (Fin dt) (Fin p) = Fin (bc_R A C avg dt * p).
Proof.
  intros HC HD. unfold bc1, bc_B, bc_R. rewrite !lit_xr by lia. change (10 ^ 3) with 1000. rewrite xmul_Fin, xexp_Fin, xmul_Fin.
  assert (EP : xpow (Fin dt) (Fin C) = Fin (if Req_EM_T dt 0 then 0%R else Rpower dt C)).
  { unfold xpow. destruct (Reqb_spec C 0); [lra|]. destruct (Rltb_spec 0 dt).
    - destruct (Req_EM_T dt 0); [lra|reflexivity].
    - destruct (Reqb_spec dt 0); [|lra]. destruct (Rltb_spec 0 C); [|lra]. destruct (Req_EM_T dt 0); [reflexivity|contradiction]. }
  rewrite EP. cbn [n_opp Num_xr xopp]. rewrite xmul_Fin, xexp_Fin. rewrite n1_xr, xsub_Fin, !xmul_Fin.
  replace 0.036%R with (36 / 1000)%R by lra. replace (-0.154)%R with (-154 / 1000)%R by lra. reflexivity.
Qed.
Lemma bc_R_range A C avg dt : (0 <= A)%R -> (0 <= dt)%R -> (0 <= bc_R A C avg dt <= A)%R.
Proof.
  intros HA HD. unfold bc_R. set (w := if Req_EM_T dt 0 then 0%R else Rpower dt C).
  assert (W : (0 <= w)%R) by (unfold w; destruct (Req_EM_T dt 0); [lra|left; apply exp_pos]).
  assert (B : (0 < 0.036 * exp (-0.154 * avg))%R) by (pose proof (exp_pos (-0.154 * avg)); lra).
  pose proof (exp_pos (- (0.036 * exp (-0.154 * avg)) * w)) as E1.
  assert (E2 : (exp (- (0.036 * exp (-0.154 * avg)) * w) <= 1)%R).
  { rewrite <- exp_0. destruct (Req_dec w 0) as [->|NZ]; [rewrite Rmult_0_r; lra|]. left. apply exp_increasing. nra. }
  split; [apply Rmult_le_pos; lra|]. nra.
Qed.
Lemma bc1_neg A C B dt p : (dt < 0)%R -> (forall z, C <> IZR z) -> bc1 A (Fin C) B (Fin dt) p = NaN.
Proof.
  intros HD HC. unfold bc1.
  assert (EP : xpow (Fin dt) (Fin C) = NaN).
  { unfold xpow. destruct (Reqb_spec C 0) as [E|_]; [exfalso; apply (HC 0%Z); exact E|]. destruct (Rltb_spec 0 dt); [lra|]. destruct (Reqb_spec dt 0); [lra|].
    destruct (Reqb_spec C (IZR (Int_part C))) as [E|_]; [exfalso; apply (HC _ E)|reflexivity]. }
  rewrite EP. destruct (- B)%num, A, p; try reflexivity; cbn; repeat destruct (Reqb _ _); reflexivity.
Qed.
