(** Properties C104 and C105: test mode of the cascade, coarse non-hourly levels. *)
From Coq Require Import ZArith List Bool Lia Reals Lra.
From Verif Require Import Py Num Cal Series UtilModel SpecBase TimeProofs CascadeModel PrecipModel
  SpecCascade CascadeProofs CascadeSteps CascadeExact CascadeMore CascadeFive SpecCoarse
  CascadeTestModel CascadeCoarse CascadeTest PropsCascade.
Import ListNotations.
Open Scope Z_scope.

(** ** C104 *)
Theorem C104_same_outcome {T} {N : Num T} e (s : series T) arg (hourly : bool) lvl shft draws pos :
  match disagg_prec_cascade e s arg hourly lvl shft draws pos with
  | Err x => disagg_prec_cascade_test e s arg hourly lvl shft draws pos = Err x
  | Ok None => disagg_prec_cascade_test e s arg hourly lvl shft draws pos = Ok None
  | Ok (Some out) =>
      if hourly || existsb (Nat.eqb lvl) [9; 10; 11]%nat
      then exists t, disagg_prec_cascade_test e s arg hourly lvl shft draws pos = Ok (Some t) /\ tr_out t = out
      else disagg_prec_cascade_test e s arg hourly lvl shft draws pos = Err UnboundLocalError
  end.
Proof.
  pose proof (test_full e s arg hourly lvl shft draws pos) as H.
  unfold disagg_prec_cascade.
  destruct (disagg_prec_cascade_full e s arg hourly lvl shft draws pos) as [[r|]|x]; cbn [bind option_map]; try exact H.
  replace (hourly || existsb (Nat.eqb lvl) [9; 10; 11]%nat) with (returns_arrays hourly lvl).
  - destruct (returns_arrays hourly lvl); [|exact H].
    destruct H as (t & E & _ & O). exists t. auto.
  - unfold returns_arrays. cbn [existsb]. rewrite orb_false_r, !orb_assoc. reflexivity.
Qed.
Print Assumptions C104_same_outcome.

(** the arrays are those of the cascade (same random numbers, same statistics) *)
Theorem C104_arrays_of_the_cascade e d0 amounts arg (hourly : bool) lvl shft draws pos :
  hourly = true \/ (9 <= lvl <= 11)%nat ->
  (2 <= length amounts)%nat -> Forall amount_ok amounts -> stats_fine arg draws (if hourly then 5 else lvl) ->
  exists t, disagg_prec_cascade_test e (daily d0 amounts) arg hourly lvl shft draws pos = Ok (Some t) /\
    cascade_steps (stats_of arg) draws (if hourly then 5 else lvl) pos (map fill0 amounts) (tr_levels t).
Proof.
  intros HL Hn HA SF. pose proof (test_full e (daily d0 amounts) arg hourly lvl shft draws pos) as H.
  assert (RA : returns_arrays hourly lvl = true).
  { unfold returns_arrays. destruct HL as [E|HL]; [subst; reflexivity|].
    destruct (Nat.eqb_spec lvl 9), (Nat.eqb_spec lvl 10), (Nat.eqb_spec lvl 11);
      rewrite ?orb_true_r, ?orb_true_l; try reflexivity; lia. }
  rewrite RA in H. destruct hourly.
  - destruct (cascade_hourly_total nnR nnR_branch nnR_dry centers_fine_xr e d0 amounts arg lvl shft draws pos Hn
                (fill0_nnR _ HA) SF) as (r & E & CS).
    rewrite E in H. destruct H as (t & Et & El & _). exists t. rewrite El. auto.
  - destruct HL as [C|HL]; [discriminate|].
    destruct (cascade_boxes_total nnR nnR_branch nnR_dry centers_fine_xr e d0 amounts arg lvl shft draws pos
                ltac:(lia) Hn (fill0_nnR _ HA) SF) as (r & E & CS).
    rewrite E in H. destruct H as (t & Et & El & _). exists t. rewrite El. auto.
Qed.
Print Assumptions C104_arrays_of_the_cascade.

(** every array keeps every daily amount, and each level halves the boxes of the previous one *)
Theorem C104_every_level_conserves e d0 amounts arg (hourly : bool) lvl shft draws pos t :
  Forall amount_ok amounts ->
  disagg_prec_cascade_test e (daily d0 amounts) arg hourly lvl shft draws pos = Ok (Some t) ->
  exists ls, tr_levels t = map (map Fin) ls /\ length ls = (if hourly then 5 else lvl)%nat /\
    halving (map depth amounts) ls /\ Forall (Forall (fun b => 0 <= b)%R) ls /\
    forall k, (k < length ls)%nat ->
      length (nth k ls []) = (2 ^ S k * length amounts)%nat /\
      forall i, (i < length amounts)%nat ->
        Rsum (chunk (2 ^ S k) i (nth k ls [])) = depth (nth i amounts NaN).
Proof.
  intros HA H. destruct (test_levels_xr _ _ _ _ _ _ _ _ _ _ HA H) as (ls & El & Ln & Hh & Fl).
  exists ls. split; [exact El|]. split; [exact Ln|]. split; [exact Hh|]. split; [exact Fl|].
  intros k Hk. destruct (halving_sums _ _ _ Hh Hk) as [A B]. rewrite map_length in A, B.
  split; [exact A|]. intros i Hi. rewrite B by exact Hi.
  change 0%R with (depth NaN). apply map_nth.
Qed.
Print Assumptions C104_every_level_conserves.

(** hourly: the quarter-hour array is a third of the 45-minute boxes, the hours are sums of four *)
Theorem C104_quarter_hours e d0 amounts arg lvl draws pos t :
  Forall amount_ok amounts ->
  disagg_prec_cascade_test e (daily d0 amounts) arg true lvl 0 draws pos = Ok (Some t) ->
  exists boxes q : list R,
    nth_error (tr_levels t) 4 = Some (map Fin boxes) /\ tr_quarters t = Some (map Fin q) /\ tr_boxes t = None /\
    length q = (96 * length amounts)%nat /\
    (forall j, (j < length q)%nat -> nth j q 0%R = (nth (j / 3) boxes 0 / 3)%R) /\
    forall i r, nth_error amounts i = Some (Fin r) ->
      values_on (d0 + Z.of_nat i) (tr_out t)
      = map (fun h => Fin (Rsum (chunk 4 h q))) (seq (24 * i) 24).
Proof.
  intros HA H.
  pose proof (C104_same_outcome e (daily d0 amounts) arg true lvl 0 draws pos) as Same.
  destruct (test_levels_xr _ _ _ _ _ _ _ _ _ _ HA H) as (ls & El & Ln & Hh & Fl).
  destruct (test_inv _ _ _ _ _ _ _ _ _ _ H) as (Hn & _ & _ & _ & Rf & Q & B).
  cbn [n_levels] in Ln, Rf.
  destruct ls as [|l1 [|l2 [|l3 [|l4 [|l5 [|]]]]]]; try discriminate Ln. clear Ln.
  rewrite El in Rf, Q. cbn [map last] in Rf, Q.
  destruct (halving_sums _ _ 4%nat Hh ltac:(cbn; lia)) as [L5 _]. cbn [nth] in L5.
  rewrite map_length in L5. change (2 ^ 5)%nat with 32%nat in L5.
  exists l5, (flat_map tri l5). split; [rewrite El; reflexivity|].
  split; [rewrite Q; f_equal; apply to_quarters_xr|]. split; [exact B|].
  assert (Lq : length (flat_map tri l5) = (96 * length amounts)%nat) by (rewrite flat_map_tri_length; lia).
  split; [exact Lq|]. split.
  { intros j Hj. apply tri_nth. rewrite flat_map_tri_length in Hj. exact Hj. }
  intros i r Hi.
  assert (Eo : exists out, disagg_prec_cascade e (daily d0 amounts) arg true lvl 0 draws pos = Ok (Some out) /\
                           tr_out t = out).
  { destruct (disagg_prec_cascade e (daily d0 amounts) arg true lvl 0 draws pos) as [[out|]|x].
    - cbn [orb] in Same. destruct Same as (t' & Et' & Eo). exists out. split; [reflexivity|].
      assert (t = t') by congruence. congruence.
    - congruence.
    - congruence. }
  clear Same. destruct Eo as (out & Eo & Et). rewrite Et. clear Et.
  assert (Hfull : disagg_prec_cascade e (daily d0 amounts) arg true lvl 0 draws pos
                  = Ok (Some (restore_missing (missing_days (daily d0 amounts))
                          (combine (hours_index d0 (length amounts)) (to_hours (map Fin l5)))))).
  { clear out Eo. unfold disagg_prec_cascade_test in H. unfold disagg_prec_cascade, disagg_prec_cascade_full.
    rewrite daily_length in *. destruct (Nat.ltb_spec (length amounts) 2) as [|_]; [lia|].
    cbv zeta in *. apply bind_Ok in H. destruct H as ([] & E1 & H). rewrite E1. cbn [bind].
    apply bind_Ok in H. destruct H as (acc & E2 & H). rewrite E2. cbn [bind].
    destruct acc as [[|v rest]|]; try discriminate.
    apply bind_Ok in H. destruct H as (idx & E3 & H). rewrite E3. cbn [bind].
    apply bind_Ok in H. destruct H as (out & E4 & H). rewrite E4. cbn [bind option_map cr_out].
    rewrite Z.eqb_refl in *. injection H as <-. cbn [tr_levels] in El.
    assert (v = map Fin l5).
    { apply (f_equal (fun l => last l [])) in El. cbn [rev map last] in El. rewrite last_last in El. exact El. }
    subst v. rewrite zero_missing_index in E3. unfold index, hourly_index in E3. rewrite daily_fst in E3.
    destruct (length amounts) as [|n] eqn:En; [lia|]. rewrite hourly_index_daily in E3.
    match type of E3 with Ok ?g = Ok _ => assert (idx = g) as -> by congruence end.
    unfold mk_series in E4. destruct (Nat.eqb _ _); [|discriminate].
    match type of E4 with Ok ?g = Ok _ => assert (out = g) as -> by congruence end. reflexivity. }
  assert (out = restore_missing (missing_days (daily d0 amounts))
                  (combine (hours_index d0 (length amounts)) (to_hours (map Fin l5)))) as -> by congruence.
  assert (HL : length (to_hours (map Fin l5)) = (24 * length amounts)%nat).
  { apply to_hours_length. rewrite map_length. exact L5. }
  rewrite (restored_day d0 amounts _ i _ HL Hi). cbn [n_isnan Num_xr xisnan].
  rewrite (to_hours_xr (length amounts)) by exact L5.
  assert (Hi' : (i < length amounts)%nat) by (apply nth_error_Some; congruence).
  rewrite chunk_map, chunk_blocksum by lia. rewrite map_map. reflexivity.
Qed.
Print Assumptions C104_quarter_hours.

(** 5-minute output: the series of boxes, and rows that are sums of the boxes starting in them *)
Theorem C104_box_series e d0 amounts arg L draws pos t :
  (9 <= L <= 11)%nat -> Forall amount_ok amounts ->
  disagg_prec_cascade_test e (daily d0 amounts) arg false L 0 draws pos = Ok (Some t) ->
  exists boxes : list R,
    nth_error (tr_levels t) (L - 1) = Some (map Fin boxes) /\ tr_quarters t = None /\
    tr_boxes t = Some (map (fun j => (box_start d0 L j, Fin (nth j boxes 0%R))) (seq 0 (2 ^ L * length amounts))).
Proof.
  intros HL HA H.
  destruct (test_levels_xr _ _ _ _ _ _ _ _ _ _ HA H) as (ls & El & Ln & Hh & Fl).
  destruct (test_inv _ _ _ _ _ _ _ _ _ _ H) as (Hn & _ & _ & _ & Rf & Q & B).
  cbn [n_levels] in Ln, Rf.
  destruct (halving_sums _ _ (L - 1) Hh ltac:(lia)) as [LL _]. rewrite map_length in LL.
  replace (S (L - 1)) with L in LL by lia.
  assert (Ne : ls <> []) by (intro C; subst ls; cbn in Ln; lia).
  exists (nth (L - 1) ls []).
  assert (Elast : last (tr_levels t) [] = map Fin (nth (L - 1) ls [])).
  { rewrite El, (last_map _ ls _ [] Ne). f_equal.
    rewrite (app_removelast_last [] Ne) at 2. rewrite app_nth2.
    - replace (L - 1 - length (removelast ls))%nat with 0%nat; [reflexivity|].
      pose proof (f_equal (@length _) (app_removelast_last [] Ne)) as E. rewrite app_length in E. cbn in E. lia.
    - pose proof (f_equal (@length _) (app_removelast_last [] Ne)) as E. rewrite app_length in E. cbn in E. lia. }
  split.
  { rewrite El, nth_error_map, (nth_error_nth' ls []) by lia. reflexivity. }
  split; [exact Q|]. rewrite B, Elast. f_equal.
  apply nth_ext with (d := (0, NaN)) (d' := (0, NaN)).
  { rewrite combine_length, grid_length, !map_length, seq_length, LL. lia. }
  intros j Hj. rewrite combine_length, grid_length, map_length, LL in Hj.
  rewrite combine_nth by (rewrite grid_length, map_length, LL; lia).
  rewrite (nth_map_seq _ (2 ^ L * length amounts)) by lia.
  rewrite (nth_indep (map Fin _) NaN (Fin 0%R)) by (rewrite map_length, LL; lia). rewrite map_nth. f_equal.
  unfold grid, box_start. rewrite box_length_sub by lia. rewrite nth_map_seq by lia. reflexivity.
Qed.
Print Assumptions C104_box_series.

Example C104_met : exists t,
  disagg_prec_cascade_test modern (daily 0 ex_amounts) (COne ex_stats) true 9 0 ex_draws 0 = Ok (Some t).
Proof.
  destruct (C104_arrays_of_the_cascade modern 0 ex_amounts (COne ex_stats) true 9 0 ex_draws 0
              (or_introl eq_refl) ltac:(cbn; lia) ex_amounts_ok) as (t & E & _).
  - split; [cbn; lia|exact ex_stats_reach].
  - exists t. exact E.
Qed.
Example C104_met_five : exists t,
  disagg_prec_cascade_test modern (daily 0 ex_amounts) (COne ex_stats) false 9 0 ex_draws 0 = Ok (Some t).
Proof.
  assert (H9 : (9 <= 9 <= 11)%nat) by lia.
  destruct (C104_arrays_of_the_cascade modern 0 ex_amounts (COne ex_stats) false 9 0 ex_draws 0
              (or_intror H9) ltac:(cbn; lia) ex_amounts_ok) as (t & E & _).
  - split; [cbn; lia|exact ex_stats_reach].
  - exists t. exact E.
Qed.

(** ** C105 *)
Theorem C105_coarse_levels e d0 amounts arg L draws pos out :
  (1 <= L <= 8)%nat -> Forall amount_ok amounts ->
  disagg_prec_cascade e (daily d0 amounts) arg false L 0 draws pos = Ok (Some out) ->
  map fst out = firstn (288 * length amounts - lost_rows L) (fivemin_index d0 (length amounts)) /\
  exists boxes : list R,
    length boxes = (2 ^ L * length amounts)%nat /\ Forall (fun b => 0 <= b)%R boxes /\
    (forall i, (i < length amounts)%nat -> Rsum (chunk (2 ^ L) i boxes) = depth (nth i amounts NaN)) /\
    forall i t v, (i < length amounts)%nat -> In (t, v) out -> t / us_day = d0 + Z.of_nat i ->
      match nth i amounts NaN with
      | Fin _ =>
          (forall j, (j < length boxes)%nat -> t <= box_start d0 L j < t + 5 * us_minute ->
             v = Fin (nth j boxes 0%R)) /\
          ((forall j, (j < length boxes)%nat -> ~ t <= box_start d0 L j < t + 5 * us_minute) -> v = Fin 0)
      | _ => v = NaN
      end.
Proof.
  intros HL HA H. destruct (cascade_coarse_exact _ _ _ _ _ _ _ _ HL HA H) as (A & boxes & B & C & D & E & _).
  split; [rewrite A; apply short_index_firstn|]. exists boxes. auto.
Qed.
Print Assumptions C105_coarse_levels.

Theorem C105_conservation e d0 amounts arg L draws pos out :
  (1 <= L <= 8)%nat -> Forall amount_ok amounts ->
  disagg_prec_cascade e (daily d0 amounts) arg false L 0 draws pos = Ok (Some out) ->
  forall i, (i < length amounts)%nat ->
    match nth i amounts NaN with
    | Fin r => exists vs, values_on (d0 + Z.of_nat i) out = map Fin vs /\ Rsum vs = r
    | _ => Forall (fun v => v = NaN) (values_on (d0 + Z.of_nat i) out)
    end.
Proof.
  intros HL HA H. destruct (cascade_coarse_exact _ _ _ _ _ _ _ _ HL HA H) as (_ & boxes & _ & _ & _ & _ & E).
  exact E.
Qed.
Print Assumptions C105_conservation.

(** (deviation) the last day is never complete *)
Theorem C105_rows_absent e d0 amounts arg L draws pos out :
  (1 <= L <= 8)%nat -> Forall amount_ok amounts ->
  disagg_prec_cascade e (daily d0 amounts) arg false L 0 draws pos = Ok (Some out) ->
  ~ In ((d0 + Z.of_nat (length amounts)) * us_day - 5 * us_minute) (map fst out).
Proof.
  intros HL HA H. destruct (cascade_coarse_exact _ _ _ _ _ _ _ _ HL HA H) as (A & _).
  rewrite A. unfold short_index. rewrite grid_In. intros (i & Hi & E).
  assert (1 <= lost_rows L)%nat by (do 9 (destruct L as [|L]; [try lia; cbn; lia|]); lia).
  pose proof (lost_bound L). unfold us_day, us_minute in E.
  assert (Z.of_nat i = 288 * Z.of_nat (length amounts) - 1) by lia. lia.
Qed.
Print Assumptions C105_rows_absent.

Theorem C105_always_returned e d0 amounts arg L shft draws pos :
  (1 <= L <= 8)%nat -> (2 <= length amounts)%nat -> Forall amount_ok amounts -> stats_fine arg draws L ->
  exists out, disagg_prec_cascade e (daily d0 amounts) arg false L shft draws pos = Ok (Some out).
Proof.
  intros HL Hn HA SF.
  destruct (cascade_boxes_total nnR nnR_branch nnR_dry centers_fine_xr e d0 amounts arg L shft draws pos
              ltac:(lia) Hn (fill0_nnR _ HA) SF) as (r & E & _).
  exists (cr_out r). unfold disagg_prec_cascade. rewrite E. reflexivity.
Qed.
Print Assumptions C105_always_returned.

Theorem C105_too_fine {T} {N : Num T} e (s : series T) arg L shft draws pos out : (12 <= L)%nat ->
  disagg_prec_cascade e s arg false L shft draws pos <> Ok (Some out).
Proof. exact (cascade_too_fine e s arg L shft draws pos out). Qed.
Print Assumptions C105_too_fine.

Theorem C105_level_zero {T} {N : Num T} e (s : series T) arg shft draws pos : (2 <= length s)%nat ->
  match arg with COne _ => True | CList l => l = [] | COther => False end ->
  disagg_prec_cascade e s arg false 0 shft draws pos = Err UnboundLocalError.
Proof. exact (cascade_level_zero e s arg shft draws pos). Qed.
Print Assumptions C105_level_zero.

Example C105_met : exists out,
  disagg_prec_cascade modern (daily 0 ex_amounts) (COne ex_stats) false 3 0 ex_draws 0 = Ok (Some out).
Proof.
  apply C105_always_returned; [lia|cbn; lia|exact ex_amounts_ok|]. split; [cbn; lia|exact ex_stats_reach].
Qed.
