(** Property C100: the master-station method in binary64 arithmetic. *)
From Coq Require Import ZArith List Bool Lia Reals Lra Floats Sorted Permutation.
From Verif Require Import Py Num Cal Series UtilModel SpecBase TimeProofs CascadeModel PrecipModel SpecCascade
  F64 CascadeProofs CascadeExact CascadeFloat CascadeFive CascadeRound EqualProofs MasterProofs
  IndexProofs SpecMasterRound MasterModel MasterProofs2 MasterRound.
Import ListNotations.
Open Scope Z_scope.

(** a double between 0 and 2^900 *)
Definition proper (x : float) : Prop := ((0 <=? x) && (x <=? 0x1p900))%float = true.

Lemma proper_fok x : proper x -> fok x /\ PrimFloat.is_nan x = false.
Proof.
  intro H. pose proof (fok_of_bounds _ H) as F. split; [exact F|]. rewrite <- isnan_spec. unfold f64_isnan.
  destruct (feqb_correct x x (proj1 (proj1 F)) (proj1 (proj1 F))) as [|C]; [reflexivity|exfalso; apply C; reflexivity].
Qed.
Lemma proper_all l : Forall proper l -> Forall fok l /\ Forall (fun x => PrimFloat.is_nan x = false) l.
Proof. induction 1 as [|x l H _ [A B]]; [split; constructor|]. destruct (proper_fok x H). split; constructor; assumption. Qed.

Lemma usable_float (sm : float) : ffin sm -> usable sm = negb (sm =? 0)%float.
Proof.
  intro F. unfold usable. change (n_isnan sm) with (f64_isnan sm). unfold f64_isnan.
  destruct (feqb_correct sm sm F F) as [_|C]; [|exfalso; apply C; reflexivity]. cbn [negb].
  change (sm =? n0)%num with (sm =? 0)%float. destruct (sm =? 0)%float; reflexivity.
Qed.

(** values of a complete master day *)
Lemma day_values tot (master : series float) uniform d a (ms : list float) : length ms = 24%nat ->
  filter (fun p => fst p / us_day =? d) master = combine (grid (d * us_day) us_hour 24) ms ->
  map (value_with tot master uniform d a) (grid (d * us_day) us_hour 24)
  = if usable (tot ms) then map (fun m => m / tot ms * a)%float ms
    else repeat (if uniform then 1 / 24 * a else 0)%float 24.
Proof.
  intros L E. assert (MT : total_with tot master d = tot ms).
  { unfold total_with, values_on. rewrite E, map_snd_combine by (rewrite L; reflexivity). reflexivity. }
  assert (V : forall j, (j < 24)%nat -> value_with tot master uniform d a (d * us_day + Z.of_nat j * us_hour)
     = if usable (tot ms) then (nth j ms 0 / tot ms * a)%float else (if uniform then 1 / 24 * a else 0)%float).
  { intros j Hj. unfold value_with. rewrite MT. destruct (usable (tot ms)); [|destruct uniform; reflexivity].
    rewrite <- (lookup_rows_on d) by (apply (grid_day_dates 24 us_hour); try reflexivity; apply grid_In; eauto).
    unfold rows_on. rewrite E, lookup_combine_grid by (try reflexivity; try assumption).
    rewrite (nth_error_nth' ms 0%float) by lia. reflexivity. }
  unfold grid. rewrite map_map.
  rewrite (map_ext_in _ (fun j => if usable (tot ms) then (nth j ms 0 / tot ms * a)%float else (if uniform then 1 / 24 * a else 0)%float))
    by (intros j Hj; apply in_seq in Hj; apply V; lia).
  destruct (usable (tot ms)); [|reflexivity].
  do 24 (destruct ms as [|? ms]; [discriminate L|]). destruct ms; [reflexivity|discriminate L].
Qed.

Lemma fsum_zero_all l : Forall fok l -> fsum l = 0%R -> Forall (fun x => fval x = 0%R) l.
Proof.
  induction 1 as [|x l ((_ & P) & _) F IH]; intro Z; [constructor|]. pose proof (fsum_cap l F) as [K _].
  unfold fsum, Rsum in *. cbn [map fold_right] in Z. constructor; [lra|]. apply IH. lra.
Qed.

Lemma fval_24th : fval (1 / 24)%float = (6004799503160661 / 144115188075855872)%R.
Proof. unfold fval. vm_compute. lra. Qed.

Theorem C100_master_up_to_rounding tot e d0 (amounts : list float) master uniform :
  adds_somehow tot -> amounts <> [] -> has_iteritems e = true -> StronglySorted Z.lt (map fst master) ->
  (forall i, (i < length amounts)%nat -> values_on (d0 + Z.of_nat i) master <> []) ->
  exists out, precip_master_station_with tot e (daily d0 amounts) master uniform = Ok out /\
    map fst out = hours_index d0 (length amounts) /\
    forall i a ms, nth_error amounts i = Some a -> proper a -> Forall proper ms -> length ms = 24%nat ->
      filter (fun p => fst p / us_day =? d0 + Z.of_nat i) master
      = combine (grid ((d0 + Z.of_nat i) * us_day) us_hour 24) ms ->
      let hs := values_on (d0 + Z.of_nat i) out in
      length hs = 24%nat /\ Forall (fun h => PrimFloat.is_finite h = true /\ 0 <= fval h)%R hs /\
      ((0 < Rsum (map fval ms))%R \/ uniform = true ->
         Rabs (Rsum (map fval hs) - fval a) <= 3 / 10 ^ 14 * fval a + 1 / 10 ^ 300)%R /\
      (Rsum (map fval ms) = 0%R -> hs = repeat (if uniform then 1 / 24 * a else 0)%float 24).
Proof.
  intros TT NE HI SS CV.
  assert (CV' : forall i, (i < length amounts)%nat -> rows_on (d0 + Z.of_nat i) master <> []).
  { intros i Hi E. apply (CV i Hi). unfold values_on. unfold rows_on in E. rewrite E. reflexivity. }
  destruct (station_with tot e d0 amounts master uniform NE HI SS CV') as (out & E & I & D).
  exists out. split; [exact E|]. split; [exact I|].
  intros i a ms Hi Pa Pm L F hs. unfold hs. rewrite (D i a Hi), (day_values tot master uniform _ a ms L F).
  destruct (proper_fok a Pa) as [Fa _]. destruct (proper_all ms Pm) as [Fm Nm].
  destruct (TT ms L Nm) as (k & Hk & AD).
  destruct (day_total k ms (tot ms) Fm L Hk AD) as (Ft & Lo & Up).
  pose proof (fsum_cap ms Fm) as [S0 _]. change (Rsum (map fval ms)) with (fsum ms).
  pose proof u64_pos as U.
  rewrite (usable_float _ Ft). destruct (feqb_correct (tot ms) 0%float Ft ffin_zero) as [Z|Z]; change (fval 0%float) with 0%R in Z; cbn [negb].
  - assert (SZ : fsum ms = 0%R).
    { rewrite Z in Lo. assert (0 <= fsum ms * (1 - 100 * u64) - fsum ms / 2)%R; [|lra].
      replace (fsum ms * (1 - 100 * u64) - fsum ms / 2)%R with (fsum ms * (1 / 2 - 100 * u64))%R by lra.
      apply Rmult_le_pos; [exact S0|unfold u64; lra]. }
    split; [apply repeat_length|].
    assert (W0 : (0 <= fval (1 / 24)%float <= 1)%R) by (rewrite fval_24th; lra).
    assert (WF : ffin (1 / 24)%float) by reflexivity.
    destruct (fmul_unit (1 / 24)%float a WF W0 (proj1 Fa)) as ((FH & PH) & _). split; [|split; [|reflexivity]].
    + apply Forall_forall. intros h Hh. apply repeat_spec in Hh. subst h. destruct uniform.
      * split; [apply ffin_spec; exact FH|exact PH].
      * split; [reflexivity|]. change (fval 0%float) with 0%R. lra.
    + intros [K|K]; [lra|]. subst uniform.
      replace (Rsum (map fval (repeat (1 / 24 * a)%float 24))) with (24 * fval (1 / 24 * a)%float)%R by (unfold Rsum; cbn [repeat map fold_right]; ring).
      pose proof (fmul_err (1 / 24)%float a WF W0 (proj1 Fa)) as R. destruct Fa as ((_ & A0) & _). rewrite fval_24th in R.
      apply Flocq.Core.Raux.Rabs_le_inv in R. apply Rabs_le. pose proof eta64_small as ES. pose proof eta64_pos as E0.
      assert (X : (u64 * (6004799503160661 / 144115188075855872 * fval a) <= / 10 ^ 15 * fval a)%R).
      { rewrite <- Rmult_assoc. apply Rmult_le_compat_r; [exact A0|]. unfold u64. lra. }
      lra.
  - assert (SP : (0 < fsum ms)%R).
    { destruct S0 as [|S0]; [assumption|]. exfalso. apply Z. rewrite <- S0 in Lo, Up. lra. }
    destruct (master_day_err k ms (tot ms) a Fm L Hk AD SP Fa) as (_ & NN & B).
    split; [rewrite map_length; exact L|]. split; [|split; [intros _; exact B|intro; lra]].
    eapply Forall_impl; [|exact NN]. intros h (A & P). split; [apply ffin_spec; exact A|exact P].
Qed.
Print Assumptions C100_master_up_to_rounding.

(** adding from left to right, as the model of C21 does, is one of the orders *)
Theorem C100_left_to_right : adds_somehow (nansum (T := float)).
Proof.
  intros l L NN. exists 1%nat. split; [lia|].
  assert (V : valid l = l).
  { clear L. unfold valid. induction NN as [|x l H _ IH]; [reflexivity|]. cbn [filter].
    change (n_isnan x) with (PrimFloat.is_nan x). rewrite H. cbn [negb]. f_equal. exact IH. }
  unfold nansum. rewrite V. clear V NN L.
  assert (G : forall l pre acc, adds pre acc -> adds (pre ++ l) (fold_left n_add l acc)).
  { clear l. induction l as [|x l IH]; intros pre acc H; [rewrite app_nil_r; exact H|]. cbn [fold_left].
    replace (pre ++ x :: l) with ((pre ++ [x]) ++ l) by (rewrite <- app_assoc; reflexivity).
    apply IH. exact (adds_two pre [x] (pre ++ [x]) acc x H (adds_one x) (Permutation_refl _)). }
  exact (G l [0%float] 0%float (adds_one _)).
Qed.
Print Assumptions C100_left_to_right.
(** so the bound holds for the call itself as modelled *)
Theorem C100_call e d0 (amounts : list float) master uniform draws pos :
  amounts <> [] -> has_iteritems e = true -> StronglySorted Z.lt (map fst master) ->
  (forall i, (i < length amounts)%nat -> values_on (d0 + Z.of_nat i) master <> []) ->
  exists out, disagg_prec e (DSeries (daily d0 amounts)) MMaster None master uniform 0 draws pos = Ok (Some out) /\
    forall i a ms, nth_error amounts i = Some a -> proper a -> Forall proper ms -> length ms = 24%nat ->
      filter (fun p => fst p / us_day =? d0 + Z.of_nat i) master
      = combine (grid ((d0 + Z.of_nat i) * us_day) us_hour 24) ms ->
      (0 < Rsum (map fval ms))%R ->
      (Rabs (Rsum (map fval (values_on (d0 + Z.of_nat i) out)) - fval a) <= 3 / 10 ^ 14 * fval a + 1 / 10 ^ 300)%R.
Proof.
  intros NE HI SS CV.
  destruct (C100_master_up_to_rounding nansum e d0 amounts master uniform C100_left_to_right NE HI SS CV) as (out & E & _ & D).
  rewrite station_with_nansum in E. exists out. unfold disagg_prec. rewrite E. cbn [bind]. split; [reflexivity|].
  intros i a ms Hi Pa Pm L F S. apply (D i a ms Hi Pa Pm L F). left. exact S.
Qed.
Print Assumptions C100_call.

(** the daily amount is not kept exactly: 1 mm with an even master *)
Definition even_master : series float := combine (hours_index 0 1) (repeat 1%float 24).
Theorem C100_exact_refuted : exists out,
  disagg_prec legacy (DSeries (daily 0 [1%float])) MMaster None even_master false 0 (fun _ => 0%float) 0 = Ok (Some out) /\
  Rsum (map fval (values_on 0 out)) <> fval 1%float.
Proof.
  eexists. split; [vm_compute; reflexivity|].
  match goal with |- Rsum (map fval ?l) <> _ => replace l with (repeat (1 / 24)%float 24) by (vm_compute; reflexivity) end.
  replace (Rsum (map fval (repeat (1 / 24)%float 24))) with (24 * fval (1 / 24)%float)%R by (unfold Rsum; cbn [repeat map fold_right]; ring).
  rewrite fval_24th. replace (fval 1%float) with 1%R by (unfold fval; vm_compute; lra). lra.
Qed.
Print Assumptions C100_exact_refuted.

Example C100_met : has_iteritems legacy = true /\ StronglySorted Z.lt (map fst even_master) /\
  values_on 0 even_master <> [] /\ proper 1%float /\ Forall proper (repeat 1%float 24) /\
  filter (fun p => fst p / us_day =? 0) even_master = combine (grid (0 * us_day) us_hour 24) (repeat 1%float 24) /\
  (0 < Rsum (map fval (repeat 1%float 24)))%R.
Proof.
  split; [reflexivity|]. split; [unfold even_master; rewrite map_fst_combine by reflexivity; change (StronglySorted Z.lt (grid 0 us_hour 24)); apply grid_sorted; reflexivity|].
  split; [discriminate|]. split; [reflexivity|]. split; [repeat constructor|]. split; [reflexivity|].
  replace (Rsum (map fval (repeat 1%float 24))) with (24 * fval 1%float)%R by (unfold Rsum; cbn [repeat map fold_right]; ring).
  replace (fval 1%float) with 1%R by (unfold fval; vm_compute; lra). lra.
Qed.
