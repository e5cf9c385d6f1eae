(** Property C120: cascade statistics estimated in doubles, and the cascade that uses them. *)
From Coq Require Import ZArith List Bool Lia Reals Lra Floats.
From Verif Require Import Py Num Cal Series UtilModel SpecBase CascadeModel PrecipModel SpecCascade AggModel SpecBuild
  BuildProofs F64 SpecAggRound AggRound CascadeFloat PropsCascade CascadeWitness.
Import ListNotations.
Open Scope Z_scope.
Notation float := PrimFloat.float (only parsing).

(** ** one aggregation step *)
Theorem C120_level pct perc (s : series float) c v :
  Forall (fun p => recorded (snd p)) s -> (Z.of_nat (length s) < 2 ^ 53) ->
  aggregate_precipitation pct perc s = Ok (c, v) -> nearly_distributions (2 / 10 ^ 15) c.
Proof.
  intros F L. apply (level_tables 300); [lia| |exact L]. eapply Forall_impl; [|exact F]. cbv beta. intro p. apply recorded_amount.
Qed.
Print Assumptions C120_level.

(** ** build_casc *)
Theorem C120_statistics pct perc hourly level avg months (h : heap float) obs h' obs' sts :
  (forall m, pct [] <> Ok m) -> (n_levels hourly level <= 11)%nat -> wf h ->
  Forall (fun p => recorded (snd p)) obs -> (Z.of_nat (length obs) < 2 ^ 53) -> months_once (seasons_of months) ->
  build_casc pct perc hourly level avg months h obs = Ok (h', obs', sts) ->
  length sts = length (seasons_of months) /\
  forall k st, nth_error sts k = Some st ->
    match season_argument h' st with
    | COne c => nearly_distributions (1 / 10 ^ 14) c /\ length (threshold c) = n_levels hourly level
    | CList l => length l = n_levels hourly level /\ Forall (fun c => nearly_distributions (2 / 10 ^ 15) c /\ threshold c <> []) l
    | COther => False
    end.
Proof.
  intros HP HL W F LE MO H. unfold build_casc in H.
  change (if hourly then 5%nat else level) with (n_levels hourly level) in H.
  change (match months with None => [None] | Some l => l end) with (seasons_of months) in H.
  destruct (build_seasons_ok pct perc (n_levels hourly level) avg (seasons_of months) h obs [] h' obs' sts W H)
    as (_ & _ & _ & _ & new & EN & LN & K).
  cbn [app] in EN. subst new. split; [exact LN|]. intros k st E.
  destruct (nth_error (seasons_of months) k) as [mo|] eqn:EM.
  2:{ exfalso. apply nth_error_None in EM. assert (X : (k < length sts)%nat) by (apply nth_error_Some; congruence). lia. }
  assert (HL' : n_levels hourly level <> O).
  { apply (seasons_levels pct perc _ avg h obs (seasons_of months) [] (h', obs', sts)); [|exact H]. intro Z. rewrite Z in EM. destruct k; discriminate EM. }
  destruct (K k mo EM) as (sub & st' & E' & ES & OK). rewrite E in E'. injection E' as <-.
  unfold months_once in MO. rewrite Forall_forall in MO. pose proof (MO mo (nth_error_In _ _ EM)) as ND.
  destruct (recorded_filled k obs F) as [F1 F2].
  destruct (subset_recorded _ mo sub ND F1 ES) as [F3 F4]. rewrite F2 in F4.
  pose proof (season_tables pct perc (n_levels hourly level) avg h' _ sub st HP ltac:(lia) F3 ltac:(lia) OK) as T.
  destruct st as [o|os]; cbn [season_argument]; [exact T|]. destruct T as [T1 T2]. split; [rewrite map_length; exact T1|].
  apply Forall_map. exact T2.
Qed.
Print Assumptions C120_statistics.

(** ** disaggregation with estimated statistics *)
Lemma estimated_fine pct perc hourly level avg months (h : heap float) obs h' obs' sts draws :
  (forall m, pct [] <> Ok m) -> (n_levels hourly level <= 11)%nat -> wf h ->
  Forall (fun p => recorded (snd p)) obs -> (Z.of_nat (length obs) < 2 ^ 53) -> months_once (seasons_of months) ->
  build_casc pct perc hourly level avg months h obs = Ok (h', obs', sts) ->
  (forall j, ordinary_draw (draws j)) ->
  forall k st, nth_error sts k = Some st -> stats_fine (season_argument h' st) draws (n_levels hourly level).
Proof.
  intros HP HL W F LE MO H D k st E.
  destruct (C120_statistics _ _ _ _ _ _ _ _ _ _ _ HP HL W F LE MO H) as [_ K]. specialize (K k st E).
  destruct (season_argument h' st) as [c|l|]; [| |contradiction].
  - destruct K as [K1 K2]. split; [lia|]. apply (reach (1 / 10 ^ 14)); [lra|exact K1|exact D].
  - destruct K as [K1 K2]. split; [exact K1|]. eapply Forall_impl; [|exact K2]. cbv beta. intros c [A B]. split; [exact B|].
    apply (reach (2 / 10 ^ 15)); [lra|exact A|exact D].
Qed.

Theorem C120_hourly pct perc level avg months (h : heap float) obs h' obs' sts e d0 amounts lvl shft draws pos :
  (forall m, pct [] <> Ok m) -> wf h ->
  Forall (fun p => recorded (snd p)) obs -> (Z.of_nat (length obs) < 2 ^ 53) -> months_once (seasons_of months) ->
  build_casc pct perc true level avg months h obs = Ok (h', obs', sts) ->
  (forall j, ordinary_draw (draws j)) -> (2 <= length amounts)%nat -> Forall famount amounts ->
  forall k st, nth_error sts k = Some st ->
  exists out, disagg_prec_cascade e (daily d0 amounts) (season_argument h' st) true lvl shft draws pos = Ok (Some out).
Proof.
  intros HP W F LE MO H D L A k st E. apply C08_never_fails_float; [exact L|exact A|].
  exact (estimated_fine pct perc true level avg months h obs h' obs' sts draws HP ltac:(cbn; lia) W F LE MO H D k st E).
Qed.
Print Assumptions C120_hourly.

Theorem C120_five_minutes pct perc level avg months (h : heap float) obs h' obs' sts e d0 amounts shft draws pos :
  (forall m, pct [] <> Ok m) -> (9 <= level <= 11)%nat -> wf h ->
  Forall (fun p => recorded (snd p)) obs -> (Z.of_nat (length obs) < 2 ^ 53) -> months_once (seasons_of months) ->
  build_casc pct perc false level avg months h obs = Ok (h', obs', sts) ->
  (forall j, ordinary_draw (draws j)) -> (2 <= length amounts)%nat -> Forall famount amounts ->
  forall k st, nth_error sts k = Some st ->
  exists out, disagg_prec_cascade e (daily d0 amounts) (season_argument h' st) false level shft draws pos = Ok (Some out).
Proof.
  intros HP HL W F LE MO H D L A k st E.
  destruct (C08_never_fails_five_minutes e d0 amounts (season_argument h' st) level shft draws pos HL L A) as (r & ER & _).
  - exact (estimated_fine pct perc false level avg months h obs h' obs' sts draws HP ltac:(cbn; lia) W F LE MO H D k st E).
  - exists (cr_out r). unfold disagg_prec_cascade. rewrite ER. reflexivity.
Qed.
Print Assumptions C120_five_minutes.

(** np.percentile of an empty array raises *)
Theorem C120_percentile {T} {N : Num T} q m : np_percentile q ([] : list T) <> Ok m.
Proof. unfold np_percentile. destruct ((q <? 0) || (100 <? q))%bool; discriminate. Qed.
Print Assumptions C120_percentile.

(** ** the restriction on the random numbers is needed (deviation); the hypotheses can be met *)
Definition ex_hours : series float := map (fun i => (3600 * Z.of_nat i, 1%float)) (seq 0 64).
Lemma ex_hours_ok : Forall (fun p => recorded (snd p)) ex_hours.
Proof. apply Forall_forall. intros p Hp. apply in_map_iff in Hp as (i & <- & _). right. right. reflexivity. Qed.

Definition ex_built := build_casc (np_percentile 50) 50%float true 9 false None heap0 ex_hours.
Lemma ex_runs : match ex_built with
  | Ok (h', _, [st]) => match disagg_prec_cascade modern (daily 0 [100; 100]%float) (season_argument h' st) true 9 0 (fun _ => umax) 0 with
                        | Err UnboundLocalError => true | _ => false end
  | _ => false end = true.
Proof. vm_compute. reflexivity. Qed.

Theorem C120_all_draws_refuted : exists (draws : nat -> float) obs amounts h' obs' st,
  (forall k, is_draw (draws k)) /\ Forall (fun p => recorded (snd p)) obs /\ Forall famount_ok amounts /\ (2 <= length amounts)%nat /\
  build_casc (np_percentile 50) 50%float true 9 false None heap0 obs = Ok (h', obs', [st]) /\
  disagg_prec_cascade modern (daily 0 amounts) (season_argument h' st) true 9 0 draws 0 = Err UnboundLocalError.
Proof.
  pose proof ex_runs as X. unfold ex_built in X.
  destruct (build_casc (np_percentile 50) 50%float true 9 false None heap0 ex_hours) as [[[h' obs'] sts]|] eqn:E; [|discriminate X].
  destruct sts as [|st [|st2 sts]]; [discriminate X| |discriminate X].
  exists (fun _ => umax), ex_hours, [100; 100]%float, h', obs', st.
  split; [intro; exact is_draw_max|]. split; [exact ex_hours_ok|]. split.
  { repeat (apply Forall_cons; [right; vm_compute; reflexivity|]). constructor. }
  split; [cbn; lia|]. split; [exact E|].
  revert X. generalize (disagg_prec_cascade modern (daily 0 [100; 100]%float) (season_argument h' st) true 9 0 (fun _ => umax) 0).
  intros [o|[]] X; try discriminate X. reflexivity.
Qed.
Print Assumptions C120_all_draws_refuted.

Example C120_met : exists h' obs' st,
  build_casc (np_percentile 50) 50%float true 9 false None heap0 ex_hours = Ok (h', obs', [st]) /\
  wf (heap0 : heap float) /\ months_once (seasons_of None) /\ ordinary_draw 0.75%float /\ ordinary_draw 0.99999999999997%float.
Proof.
  pose proof ex_runs as X. unfold ex_built in X.
  destruct (build_casc (np_percentile 50) 50%float true 9 false None heap0 ex_hours) as [[[h' obs'] sts]|] eqn:E; [|discriminate X].
  destruct sts as [|st [|st2 sts]]; [discriminate X| |discriminate X].
  exists h', obs', st. split; [reflexivity|]. split; [intros n Hn; cbn in Hn; lia|]. split; [repeat constructor|].
  split; (split; [vm_compute; reflexivity|]; unfold fval; vm_compute; lra).
Qed.
