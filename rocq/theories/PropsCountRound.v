(** Property C121: cascade statistics estimated in doubles are correctly rounded relative frequencies. *)
From Coq Require Import ZArith List Bool Lia Reals Lra Floats.
From Verif Require Import Py Num Cal Series UtilModel SpecBase CascadeModel PrecipModel SpecCascade AggModel SpecAgg SpecBuild
  BuildProofs PropsAgg F64 SpecAggRound AggRound SpecCountRound CountRound.
Import ListNotations.
Open Scope Z_scope.
Notation float := PrimFloat.float (only parsing).

(** ** one aggregation step *)
Theorem C121_step pct perc (s : series float) c v :
  Forall (fun p => recorded (snd p)) s -> (Z.of_nat (length s) < 2 ^ 53) ->
  aggregate_precipitation pct perc s = Ok (c, v) ->
  map snd v = fsums (map snd s) /\ step_statistics pct perc (map snd s) c.
Proof.
  intros F L. apply (level_counts 300); [lia| |exact L]. eapply Forall_impl; [|exact F]. cbv beta. intro p. apply recorded_amount.
Qed.
Print Assumptions C121_step.

(** ** build_casc with one set of statistics per step *)
Theorem C121_statistics pct perc hourly level months (h : heap float) obs h' obs' sts :
  (n_levels hourly level <= 100)%nat -> wf h ->
  Forall (fun p => recorded (snd p)) obs -> (Z.of_nat (length obs) < 2 ^ 53) -> months_once (seasons_of months) ->
  build_casc pct perc hourly level false months h obs = Ok (h', obs', sts) ->
  forall k mo, nth_error (seasons_of months) k = Some mo ->
  exists sub st l, seasonal_subset (season_data k obs) mo = Ok sub /\ nth_error sts k = Some st /\
    season_argument h' st = CList l /\ length l = n_levels hourly level /\
    forall i c, nth_error l i = Some c -> step_statistics pct perc (step_data i (map snd sub)) c.
Proof.
  intros HL W F LE MO H k mo EM. unfold build_casc in H.
  change (if hourly then 5%nat else level) with (n_levels hourly level) in H.
  change (match months with None => [None] | Some l => l end) with (seasons_of months) in H.
  destruct (build_seasons_ok pct perc (n_levels hourly level) false (seasons_of months) h obs [] h' obs' sts W H)
    as (_ & _ & _ & _ & new & EN & LN & K).
  cbn [app] in EN. subst new. destruct (K k mo EM) as (sub & st & E & ES & ls & LV & OK).
  unfold months_once in MO. rewrite Forall_forall in MO. pose proof (MO mo (nth_error_In _ _ EM)) as ND.
  destruct (recorded_filled k obs F) as [F1 F2].
  destruct (subset_recorded _ mo sub ND F1 ES) as [F3 F4]. rewrite F2 in F4.
  destruct st as [o|os]; destruct OK as (A & B & C); [discriminate A|].
  exists sub, (SList os), (map (read_casc h') os). rewrite iter_fill in ES by reflexivity. split; [exact ES|]. split; [exact E|]. split; [reflexivity|].
  destruct (levels_counts pct perc (n_levels hourly level) 300 sub ls ltac:(lia) ltac:(lia)) as [L1 L2]; [|lia|exact LV|].
  { eapply Forall_impl; [|exact F3]. cbv beta. intros p. apply recorded_amount. }
  rewrite C, map_length. split; [exact L1|]. intros i c EC. rewrite nth_error_map in EC.
  destruct (nth_error ls i) as [[c0 n]|] eqn:EL; [|discriminate EC]. injection EC as <-. exact (proj1 (L2 i c0 n EL)).
Qed.
Print Assumptions C121_statistics.

(** ** build_casc with averaged statistics *)
Theorem C121_averaged pct perc hourly level months (h : heap float) obs h' obs' sts :
  (forall m, pct [] <> Ok m) -> (n_levels hourly level <= 11)%nat -> wf h ->
  Forall (fun p => recorded (snd p)) obs -> (Z.of_nat (length obs) < 2 ^ 53) -> months_once (seasons_of months) ->
  build_casc pct perc hourly level true months h obs = Ok (h', obs', sts) ->
  forall k mo, nth_error (seasons_of months) k = Some mo ->
  exists sub st c cs, seasonal_subset (season_data k obs) mo = Ok sub /\ nth_error sts k = Some st /\
    season_argument h' st = COne c /\ length cs = n_levels hourly level /\
    (forall i x, nth_error cs i = Some x -> step_statistics pct perc (step_data i (map snd sub)) x) /\
    averaged_tables (1 / 10 ^ 14) c cs (map (fun i => length (step_data (S i) (map snd sub))) (seq 0 (n_levels hourly level))).
Proof.
  intros HP HL W F LE MO H k mo EM. unfold build_casc in H.
  change (if hourly then 5%nat else level) with (n_levels hourly level) in H.
  change (match months with None => [None] | Some l => l end) with (seasons_of months) in H.
  destruct (build_seasons_ok pct perc (n_levels hourly level) true (seasons_of months) h obs [] h' obs' sts W H)
    as (_ & _ & _ & _ & new & EN & LN & K).
  assert (HL' : n_levels hourly level <> O).
  { apply (seasons_levels pct perc _ true h obs (seasons_of months) [] (h', obs', sts)); [|exact H]. intro Z. rewrite Z in EM. destruct k; discriminate EM. }
  cbn [app] in EN. subst new. destruct (K k mo EM) as (sub & st & E & ES & ls & LV & OK).
  unfold months_once in MO. rewrite Forall_forall in MO. pose proof (MO mo (nth_error_In _ _ EM)) as ND.
  destruct (recorded_filled k obs F) as [F1 F2].
  destruct (subset_recorded _ mo sub ND F1 ES) as [F3 F4]. rewrite F2 in F4.
  destruct st as [o|os]; destruct OK as (A & B & C); [|discriminate A].
  assert (F5 : Forall (fun p => amount_in 300 (snd p)) sub).
  { eapply Forall_impl; [|exact F3]. cbv beta. intros p. apply recorded_amount. }
  destruct (levels_counts pct perc (n_levels hourly level) 300 sub ls ltac:(lia) ltac:(lia) F5 ltac:(lia) LV) as [L1 L2].
  destruct (levels_tables pct perc HP (n_levels hourly level) 300 sub ls ltac:(lia) ltac:(lia) F5 ltac:(lia) LV) as (T1 & T2 & T3).
  exists sub, (SOne o), (read_casc h' o), (map fst ls). rewrite iter_fill in ES by reflexivity. split; [exact ES|]. split; [exact E|]. split; [reflexivity|].
  split; [rewrite map_length; exact L1|]. split.
  - intros i c EC. rewrite nth_error_map in EC.
    destruct (nth_error ls i) as [[c0 n]|] eqn:EL; [|discriminate EC]. injection EC as <-. exact (proj1 (L2 i c0 n EL)).
  - assert (EM' : map (fun i => length (step_data (S i) (map snd sub))) (seq 0 (n_levels hourly level)) = map snd ls).
    { rewrite <- L1. apply nth_ext with (d := 0%nat) (d' := 0%nat); [rewrite !map_length, seq_length; reflexivity|].
      intros i Hi. rewrite map_length, seq_length in Hi. destruct (nth_error ls i) as [[c0 n]|] eqn:EL.
      2:{ apply nth_error_None in EL. lia. }
      rewrite (nth_indep _ 0%nat (length (step_data (S 0) (map snd sub)))) by (rewrite map_length, seq_length; exact Hi).
      rewrite (map_nth (fun i => length (step_data (S i) (map snd sub)))), seq_nth by exact Hi. cbn [Nat.add].
      rewrite <- (proj2 (L2 i c0 n EL)). symmetry. apply nth_error_nth. rewrite nth_error_map, EL. reflexivity. }
    rewrite EM', C. apply averaged_all; [lia|intros ->; cbn in L1; lia|lia|exact T3].
Qed.
Print Assumptions C121_averaged.

(** ** the hypotheses can be met: a small and a large event of three boxes, and one small and one large isolated box;
    and a record of one event only *)
Definition ex_rain : list float :=
  [0; 1;  0.5; 0.5;  1; 0;   0; 0;  0.25; 0.75;  0; 0;  1; 2;  3; 0;  0; 3;   0; 0;  2; 1]%float.
Definition ex_record : series float := combine (map (fun i => 3600 * Z.of_nat i) (seq 0 22)) ex_rain.
Example C121_met : Forall (fun p => recorded (snd p)) ex_record /\
  match aggregate_precipitation (np_percentile 50) 50%float ex_record with Ok (c, _) => threshold c = [2%float] | Err _ => False end /\
  (forall b t, (b < 2)%nat -> (t < 4)%nat -> fnumber fany 2 ex_rain b t <> 0%nat) /\
  fnumber f01 2 ex_rain 0 0 = 1%nat /\ fnumber (fshare 1) 2 ex_rain 0 3 = 1%nat.
Proof.
  split; [|split; [vm_compute; reflexivity|split; [|vm_compute; split; reflexivity]]].
  - unfold ex_record, ex_rain. cbn [seq map combine].
    repeat (apply Forall_cons; [cbn [snd]; first [right; left; reflexivity|right; right; vm_compute; reflexivity]|]). apply Forall_nil.
  - intros b t Hb Ht. destruct b as [|[|b]]; [| |lia]; (destruct t as [|[|[|[|t]]]]; [| | | |lia]); vm_compute; discriminate.
Qed.
Example C121_met_shipped : fnumber fany 1.5 [1; 1; 0; 1; 1; 0]%float 0 3 = 0%nat.
Proof. vm_compute. reflexivity. Qed.
