(** Properties C01-C12 and C68: multiplicative random cascade. *)
From Coq Require Import ZArith List Bool Lia Reals Lra Floats.
From Verif Require Import Py Num Cal Series UtilModel SpecBase CascadeModel PrecipModel SpecCascade
  F64 CascadeProofs CascadeSteps CascadeExact CascadeFloat CascadeMore CascadeFive CascadeHours CascadeWitness.
Import ListNotations.
Open Scope Z_scope.

(** ** statistics used in the examples: all branchings possible, uniform weights *)
Definition ex_stats : casc xr := {|
  p01 := fun _ _ => Fin (1/4); p10 := fun _ _ => Fin (1/4); pxx := fun _ _ => Fin (1/2);
  wxx := fun _ _ _ => Fin (1/7);
  threshold := [Fin 1; Fin 1; Fin 1; Fin 1; Fin 1; Fin 1; Fin 1; Fin 1; Fin 1]; percentile := Fin 50 |}.
Definition ex_draws (j : nat) : xr := if Nat.even j then Fin (9/10) else Fin (1/3).
Definition ex_amounts : list xr := [Fin 10; NaN; Fin 0; Fin 5].

Lemma ex_amounts_ok : Forall amount_ok ex_amounts.
Proof.
  unfold ex_amounts, amount_ok.
  apply Forall_cons; [right; exists 10%R; split; [reflexivity|lra]|].
  apply Forall_cons; [left; reflexivity|].
  apply Forall_cons; [right; exists 0%R; split; [reflexivity|lra]|].
  apply Forall_cons; [right; exists 5%R; split; [reflexivity|lra]|constructor].
Qed.
Lemma ex_stats_reach : weights_reach ex_stats ex_draws.
Proof.
  intros j b t _ _. cbn [wxx ex_stats]. rewrite (cumw_xr (fun _ => (1/7)%R)).
  unfold ex_draws. unfold Rsum; cbn [seq map fold_right].
  destruct (Nat.even j); rewrite xleb_Fin; destruct (Rleb_spec (9/10) (1/7+(1/7+(1/7+(1/7+(1/7+(1/7+(1/7+0)))))))),
    (Rleb_spec (1/3) (1/7+(1/7+(1/7+(1/7+(1/7+(1/7+(1/7+0)))))))); try reflexivity; exfalso; lra.
Qed.

(** ** C01 *)
Theorem C01_mass_conservation e d0 amounts arg lvl draws pos out :
  Forall amount_ok amounts ->
  disagg_prec_cascade e (daily d0 amounts) arg true lvl 0 draws pos = Ok (Some out) ->
  forall i r, nth_error amounts i = Some (Fin r) ->
  exists hs, values_on (d0 + Z.of_nat i) out = map Fin hs /\ length hs = 24%nat /\
             Forall (fun h => 0 <= h)%R hs /\ Rsum hs = r.
Proof. exact (cascade_exact_days e d0 amounts arg lvl draws pos out). Qed.
Print Assumptions C01_mass_conservation.
Example C01_met : Forall amount_ok ex_amounts /\ exists out,
  disagg_prec_cascade modern (daily 0 ex_amounts) (COne ex_stats) true 9 0 ex_draws 0 = Ok (Some out).
Proof.
  split; [exact ex_amounts_ok|].
  destruct (cascade_hourly_total nnR nnR_branch nnR_dry centers_fine_xr modern 0 ex_amounts
              (COne ex_stats) 9 0 ex_draws 0) as (r & E & _).
  - cbn; lia.
  - apply fill0_nnR, ex_amounts_ok.
  - split; [cbn; lia|exact ex_stats_reach].
  - exists (cr_out r). unfold disagg_prec_cascade. rewrite E. reflexivity.
Qed.

(** ** C02 *)
Theorem C02_float_nonnegative e d0 amounts arg lvl draws pos out :
  (Z.of_nat (length amounts) < 2 ^ 46)%Z ->
  Forall famount_ok amounts ->
  disagg_prec_cascade e (daily d0 amounts) arg true lvl 0 draws pos = Ok (Some out) ->
  forall i a, nth_error amounts i = Some a -> PrimFloat.is_nan a = false ->
  length (values_on (d0 + Z.of_nat i) out) = 24%nat /\
  forall h, In h (values_on (d0 + Z.of_nat i) out) ->
    PrimFloat.is_finite h = true /\ (0 <=? h)%float = true.
Proof.
  intros Hn HA H i a Hi Ha. pose proof (cascade_f64_days e d0 amounts arg lvl draws pos out Hn HA H i a Hi) as G.
  rewrite Ha in G. destruct G as [L G]. split; [exact L|]. intros h Hh. destruct (G h Hh) as (A & B & _). auto.
Qed.
Print Assumptions C02_float_nonnegative.
Definition ex_famounts : list float := [10; nan; 0; 0x1.3333333333333p0]%float.
Lemma ex_famounts_ok : Forall famount_ok ex_famounts.
Proof. unfold ex_famounts, famount_ok. repeat (apply Forall_cons; [vm_compute; auto|]). constructor. Qed.
(** that a result is returned for these amounts: [C02_C03_C04_met] below, after C08 *)

(** ** C03 *)
Theorem C03_dry_days_exactly_dry e d0 amounts arg lvl draws pos out :
  (Z.of_nat (length amounts) < 2 ^ 46)%Z ->
  Forall famount_ok amounts ->
  disagg_prec_cascade e (daily d0 amounts) arg true lvl 0 draws pos = Ok (Some out) ->
  forall i a, nth_error amounts i = Some a -> (a =? 0)%float = true ->
  length (values_on (d0 + Z.of_nat i) out) = 24%nat /\
  forall h, In h (values_on (d0 + Z.of_nat i) out) -> (h =? 0)%float = true.
Proof.
  intros Hn HA H i a Hi Ha. pose proof (cascade_f64_days e d0 amounts arg lvl draws pos out Hn HA H i a Hi) as G.
  destruct (PrimFloat.is_nan a) eqn:E.
  - exfalso. clear - E Ha. unfold PrimFloat.is_nan in E.
    assert (N : (a =? a)%float = false) by (destruct (a =? a)%float; [discriminate|reflexivity]).
    rewrite FloatAxioms.eqb_spec in Ha, N.
    change (Prim2SF 0%float) with (S754_zero false) in Ha.
    unfold SFeqb, SFcompare in *. destruct (Prim2SF a) as [s|s| |s m x]; try discriminate; try (destruct s; discriminate).
  - destruct G as [L G]. split; [exact L|]. intros h Hh. destruct (G h Hh) as (_ & _ & B). auto.
Qed.
Print Assumptions C03_dry_days_exactly_dry.
Example C03_met : nth_error ex_famounts 2 = Some 0%float. Proof. reflexivity. Qed.

(** ** C04 *)
Theorem C04_missing_days_exact e d0 amounts arg lvl draws pos out :
  Forall amount_ok amounts ->
  disagg_prec_cascade e (daily d0 amounts) arg true lvl 0 draws pos = Ok (Some out) ->
  forall i a, nth_error amounts i = Some a ->
  length (values_on (d0 + Z.of_nat i) out) = 24%nat /\
  forall h, In h (values_on (d0 + Z.of_nat i) out) -> (h = NaN <-> a = NaN).
Proof.
  intros HA H i a Hi. assert (A : amount_ok a) by (rewrite Forall_forall in HA; apply HA; eapply nth_error_In; exact Hi).
  destruct A as [->|(r & -> & Hr)].
  - rewrite (cascade_missing_days e d0 amounts arg lvl draws pos out H i NaN Hi eq_refl).
    split; [apply repeat_length|]. intros h Hh. apply repeat_spec in Hh. tauto.
  - destruct (cascade_exact_days e d0 amounts arg lvl draws pos out HA H i r Hi) as (hs & -> & L & _).
    split; [rewrite map_length; exact L|]. intros h Hh. apply in_map_iff in Hh. destruct Hh as (x & <- & _).
    split; discriminate.
Qed.
Print Assumptions C04_missing_days_exact.

Theorem C04_missing_days_float e d0 amounts arg lvl draws pos out :
  (Z.of_nat (length amounts) < 2 ^ 46)%Z -> Forall famount_ok amounts ->
  disagg_prec_cascade e (daily d0 amounts) arg true lvl 0 draws pos = Ok (Some out) ->
  forall i a, nth_error amounts i = Some a ->
  length (values_on (d0 + Z.of_nat i) out) = 24%nat /\
  forall h, In h (values_on (d0 + Z.of_nat i) out) -> PrimFloat.is_nan h = PrimFloat.is_nan a.
Proof.
  intros Hn HA H i a Hi. pose proof (cascade_f64_days e d0 amounts arg lvl draws pos out Hn HA H i a Hi) as G.
  destruct (PrimFloat.is_nan a).
  - rewrite G. split; [apply repeat_length|]. intros h Hh. apply repeat_spec in Hh. subst h. reflexivity.
  - destruct G as [L G]. split; [exact L|]. intros h Hh. destruct (G h Hh) as (F & _ & _).
    clear - F. unfold PrimFloat.is_finite in F. destruct (PrimFloat.is_nan h); [discriminate|reflexivity].
Qed.
Print Assumptions C04_missing_days_float.

(** replacing one missing amount by zero: same result for every other day (exact reals and doubles) *)
Theorem C04_missing_counts_as_dry e d0 before after arg hourly lvl draws pos out :
  disagg_prec_cascade e (daily d0 (before ++ NaN :: after)) arg hourly lvl 0 draws pos = Ok (Some out) ->
  exists out', disagg_prec_cascade e (daily d0 (before ++ Fin 0 :: after)) arg hourly lvl 0 draws pos = Ok (Some out') /\
    map fst out' = map fst out /\
    forall j, (j < length (before ++ NaN :: after))%nat -> j <> length before ->
      values_on (d0 + Z.of_nat j) out' = values_on (d0 + Z.of_nat j) out.
Proof. exact (missing_as_zero e d0 before after NaN arg hourly lvl draws pos eq_refl eq_refl out). Qed.
Print Assumptions C04_missing_counts_as_dry.
Theorem C04_missing_counts_as_dry_float e d0 before after arg hourly lvl draws pos out :
  disagg_prec_cascade e (daily d0 (before ++ nan :: after)) arg hourly lvl 0 draws pos = Ok (Some out) ->
  exists out', disagg_prec_cascade e (daily d0 (before ++ 0%float :: after)) arg hourly lvl 0 draws pos = Ok (Some out') /\
    map fst out' = map fst out /\
    forall j, (j < length (before ++ nan :: after))%nat -> j <> length before ->
      values_on (d0 + Z.of_nat j) out' = values_on (d0 + Z.of_nat j) out.
Proof. exact (missing_as_zero e d0 before after nan arg hourly lvl draws pos eq_refl eq_refl out). Qed.
Print Assumptions C04_missing_counts_as_dry_float.
Example C04_met : ex_amounts = [Fin 10] ++ NaN :: [Fin 0; Fin 5] /\ nth_error ex_amounts 1 = Some NaN.
Proof. split; reflexivity. Qed.

(** ** C05 (any number type) *)
Theorem C05_hourly_time_stamps {T} {N : Num T} e d0 (amounts : list T) arg lvl shft draws pos out :
  disagg_prec_cascade e (daily d0 amounts) arg true lvl shft draws pos = Ok (Some out) ->
  map fst out = hours_index d0 (length amounts).
Proof. exact (cascade_hourly_index e d0 amounts arg lvl shft draws pos out). Qed.
Print Assumptions C05_hourly_time_stamps.
Theorem C05_fewer_than_two_days {T} {N : Num T} e (s : series T) arg hourly lvl shft draws pos :
  (length s < 2)%nat -> disagg_prec_cascade e s arg hourly lvl shft draws pos = Err ValueError.
Proof. exact (cascade_short e s arg hourly lvl shft draws pos). Qed.
Print Assumptions C05_fewer_than_two_days.
(** daily stamps at hour h = 1..23 (plus r below an hour): never a series *)
Theorem C05_not_at_hour_zero {T} {N : Num T} e d0 h r (amounts : list T) arg lvl shft draws pos out :
  1 <= h <= 23 -> 0 <= r < us_hour ->
  disagg_prec_cascade e (combine (grid (d0 * us_day + h * us_hour + r) us_day (length amounts)) amounts)
    arg true lvl shft draws pos <> Ok (Some out).
Proof. exact (cascade_offset e d0 h r amounts arg lvl shft draws pos out). Qed.
Print Assumptions C05_not_at_hour_zero.
Example C05_hours : hours_index 0 1 = map (fun h => h * us_hour) [0;1;2;3;4;5;6;7;8;9;10;11;12;13;14;15;16;17;18;19;20;21;22;23].
Proof. reflexivity. Qed.
(** ** C06 *)
Theorem C06_shift {T} {N : Num T} e (s : series T) arg hourly lvl k draws pos out0 :
  disagg_prec_cascade e s arg hourly lvl 0 draws pos = Ok (Some out0) ->
  exists out, disagg_prec_cascade e s arg hourly lvl k draws pos = Ok (Some out) /\
    map fst out = map fst out0 /\
    forall p, (p < length out0)%nat ->
      nth_error (map snd out) p =
      if (0 <=? Z.of_nat p - k) && (Z.of_nat p - k <? Z.of_nat (length out0))
      then nth_error (map snd out0) (Z.to_nat (Z.of_nat p - k)) else Some n_nan.
Proof. exact (cascade_shift e s arg hourly lvl k draws pos out0). Qed.
Print Assumptions C06_shift.
(** ** C07, C08, C12: existence of a result, branching rule, level statistics.
    [cascade_steps (stats_of arg)] pins every box of every level: draws consumed, table cell
    (neighbours and threshold), class, halves; the level with k finer levels below it uses
    statistics number k. *)
Theorem C07_branching_rule_exact e d0 amounts arg lvl shft draws pos :
  (2 <= length amounts)%nat -> Forall amount_ok amounts -> stats_fine arg draws 5 ->
  exists r, disagg_prec_cascade_full e (daily d0 amounts) arg true lvl shft draws pos = Ok (Some r) /\
    cascade_steps (stats_of arg) draws 5 pos (map fill0 amounts) (cr_levels r).
Proof.
  intros L A S. exact (cascade_hourly_total nnR nnR_branch nnR_dry centers_fine_xr e d0 amounts arg lvl shft draws pos
    L (fill0_nnR amounts A) S).
Qed.
Print Assumptions C07_branching_rule_exact.
Theorem C07_branching_rule_float e d0 amounts arg lvl shft draws pos :
  (2 <= length amounts)%nat -> Forall famount amounts -> stats_fine arg draws 5 ->
  exists r, disagg_prec_cascade_full e (daily d0 amounts) arg true lvl shft draws pos = Ok (Some r) /\
    cascade_steps (stats_of arg) draws 5 pos (map fill0 amounts) (cr_levels r).
Proof.
  intros L A S. exact (cascade_hourly_total fnn fnn_branch fnn_dry centers_fine_f64 e d0 amounts arg lvl shft draws pos
    L (fill0_fnn amounts A) S).
Qed.
Print Assumptions C07_branching_rule_float.
(** the early return of None is unreachable, for every input *)
Theorem C07_no_early_return_exact e (s : series xr) arg hourly lvl shft draws pos :
  disagg_prec_cascade e s arg hourly lvl shft draws pos <> Ok None.
Proof. exact (cascade_no_return (T := xr) centers_fine_xr e s arg hourly lvl shft draws pos). Qed.
Print Assumptions C07_no_early_return_exact.
Theorem C07_no_early_return_float e (s : series float) arg hourly lvl shft draws pos :
  disagg_prec_cascade e s arg hourly lvl shft draws pos <> Ok None.
Proof. exact (cascade_no_return (T := float) (N := Num_f64) centers_fine_f64 e s arg hourly lvl shft draws pos). Qed.
Print Assumptions C07_no_early_return_float.
Example C07_met : stats_fine (COne ex_stats) ex_draws 5 /\ Forall amount_ok ex_amounts.
Proof. split; [split; [cbn; lia|exact ex_stats_reach]|exact ex_amounts_ok]. Qed.

Theorem C08_never_fails_exact e d0 amounts arg lvl shft draws pos :
  (2 <= length amounts)%nat -> Forall amount_ok amounts -> stats_fine arg draws 5 ->
  exists out, disagg_prec_cascade e (daily d0 amounts) arg true lvl shft draws pos = Ok (Some out).
Proof.
  intros L A S. destruct (C07_branching_rule_exact e d0 amounts arg lvl shft draws pos L A S) as (r & E & _).
  exists (cr_out r). unfold disagg_prec_cascade. rewrite E. reflexivity.
Qed.
Print Assumptions C08_never_fails_exact.
Theorem C08_never_fails_float e d0 amounts arg lvl shft draws pos :
  (2 <= length amounts)%nat -> Forall famount amounts -> stats_fine arg draws 5 ->
  exists out, disagg_prec_cascade e (daily d0 amounts) arg true lvl shft draws pos = Ok (Some out).
Proof.
  intros L A S. destruct (C07_branching_rule_float e d0 amounts arg lvl shft draws pos L A S) as (r & E & _).
  exists (cr_out r). unfold disagg_prec_cascade. rewrite E. reflexivity.
Qed.
Print Assumptions C08_never_fails_float.
Theorem C08_never_fails_five_minutes e d0 amounts arg L shft draws pos :
  (9 <= L <= 11)%nat -> (2 <= length amounts)%nat -> Forall famount amounts -> stats_fine arg draws L ->
  exists r, disagg_prec_cascade_full e (daily d0 amounts) arg false L shft draws pos = Ok (Some r) /\
    cascade_steps (stats_of arg) draws L pos (map fill0 amounts) (cr_levels r).
Proof.
  intros HL Hl A S. exact (cascade_five_total fnn fnn_branch fnn_dry centers_fine_f64 e d0 amounts arg L shft draws pos
    HL Hl (fill0_fnn amounts A) S).
Qed.
Print Assumptions C08_never_fails_five_minutes.
Definition ex_eighths : casc float := {|
  p01 := fun _ _ => 0.25%float; p10 := fun _ _ => 0.25%float; pxx := fun _ _ => 0.5%float;
  wxx := fun k _ _ => if Nat.eqb k 0 then 0.25%float else 0.125%float;
  threshold := [1;1;1;1;1;1;1;1;1]%float; percentile := 50%float |}.
Example C08_met : stats_fine (COne ex_eighths) (fun _ => umax) 9 /\ stats_fine (CList (repeat ex_eighths 5)) (fun _ => umax) 5
  /\ Forall famount ex_famounts.
Proof.
  assert (W : weights_reach ex_eighths (fun _ => umax)) by (intros j b t _ _; vm_compute; reflexivity).
  split; [split; [cbn; lia|exact W]|]. split.
  - split; [reflexivity|]. repeat (apply Forall_cons; [split; [discriminate|exact W]|]). constructor.
  - unfold ex_famounts, famount. repeat (apply Forall_cons; [vm_compute; auto|]). constructor.
Qed.

Example C02_C03_C04_met : exists out,
  disagg_prec_cascade modern (daily 0 ex_famounts) (COne ex_eighths) true 9 0 (fun _ => umax) 0 = Ok (Some out).
Proof. apply C08_never_fails_float; [cbn; lia|apply C08_met|]. split; [cbn; lia|]. apply C08_met. Qed.
Example C06_met : exists out,
  disagg_prec_cascade modern (daily 0 ex_famounts) (COne ex_eighths) true 9 (-7) (fun _ => umax) 0 = Ok (Some out).
Proof. apply C08_never_fails_float; [cbn; lia|apply C08_met|]. split; [cbn; lia|]. apply C08_met. Qed.

(** ** C09: witnesses in doubles *)
Theorem C09_sample_statistics_crash_refuted :
  exists (draws : nat -> float) amounts,
    (forall k, is_draw (draws k)) /\ Forall famount_ok amounts /\ (2 <= length amounts)%nat /\
    disagg_prec_cascade modern (daily 0 amounts) (COne (fill_with_sample_data casc_init)) true 9 0 draws 0
    = Err UnboundLocalError.
Proof.
  exists (fun _ : nat => umax), [10; 10]%float. split; [intro; exact is_draw_max|]. split.
  { repeat (apply Forall_cons; [right; vm_compute; reflexivity|]). constructor. }
  split; [cbn; lia|]. exact sample_crash.
Qed.
Print Assumptions C09_sample_statistics_crash_refuted.
Theorem C09_default_weights_crash_refuted :
  exists (draws : nat -> float) amounts (c : casc float),
    (forall k, is_draw (draws k)) /\ Forall famount_ok amounts /\ (2 <= length amounts)%nat /\
    (forall k b t, wxx c k b t = (1 / 7)%float) /\
    disagg_prec_cascade modern (daily 0 amounts) (COne c) true 9 0 draws 0 = Err UnboundLocalError.
Proof.
  exists (fun _ : nat => umax), [10; 10]%float, sevenths. split; [intro; exact is_draw_max|]. split.
  { repeat (apply Forall_cons; [right; vm_compute; reflexivity|]). constructor. }
  split; [cbn; lia|]. split; [reflexivity|]. exact sevenths_crash.
Qed.
Print Assumptions C09_default_weights_crash_refuted.
(** a returned result whose second box was split with the class of the first box, although its
    own draw selects no class *)
Theorem C09_stale_weight_refuted :
  exists draws : nat -> float, (forall k, is_draw (draws k)) /\
  (forall k, ~ picks (fun k => wxx (fill_with_sample_data casc_init) k 0 2) (draws 3%nat) k) /\
  exists r,
    disagg_prec_cascade_full modern (daily 0 [10%float; 5%float])
      (COne (fill_with_sample_data casc_init)) true 9 0 draws 0 = Ok (Some r) /\
    nth 0 (cr_levels r) [] = [center 0 * 10; (1 - center 0) * 10; center 0 * 5; (1 - center 0) * 5]%float.
Proof.
  exists stale_draws. split; [exact stale_is_draw|]. split; [exact stale_no_class|]. exact stale_levels.
Qed.
Print Assumptions C09_stale_weight_refuted.

(** ** C10 *)
Theorem C10_list_length {T} {N : Num T} e (s : series T) l (hourly : bool) lvl shft draws pos : (2 <= length s)%nat ->
  length l <> (if hourly then 5%nat else lvl) ->
  disagg_prec_cascade e s (CList l) hourly lvl shft draws pos = Err ValueError.
Proof. exact (cascade_badlist e s l hourly lvl shft draws pos). Qed.
Print Assumptions C10_list_length.
Theorem C10_option_type {T} {N : Num T} e (s : series T) (hourly : bool) lvl shft draws pos : (2 <= length s)%nat ->
  disagg_prec_cascade e s COther hourly lvl shft draws pos = Err TypeError.
Proof. exact (cascade_badtype e s hourly lvl shft draws pos). Qed.
Print Assumptions C10_option_type.
Theorem C10_too_few_thresholds {T} {N : Num T} e (s : series T) c (hourly : bool) lvl shft draws pos : (2 <= length s)%nat ->
  (length (threshold c) < (if hourly then 5 else lvl))%nat ->
  disagg_prec_cascade e s (COne c) hourly lvl shft draws pos = Err IndexError.
Proof. exact (cascade_fewthresholds e s c hourly lvl shft draws pos). Qed.
Print Assumptions C10_too_few_thresholds.
Theorem C10_unknown_method {T} {N : Num T} e (data : daily_arg T) opts master z shft draws pos :
  disagg_prec e data MOther opts master z shft draws pos = Err ValueError.
Proof. reflexivity. Qed.
Print Assumptions C10_unknown_method.
Theorem C10_cascade_without_statistics {T} {N : Num T} e (data : daily_arg T) master z shft draws pos :
  disagg_prec e data MCascade None master z shft draws pos = Err AssertionError.
Proof. reflexivity. Qed.
Print Assumptions C10_cascade_without_statistics.
Example C10_met : (length (threshold (casc_init (T := float))) < (if false then 5 else 9))%nat.
Proof. cbn. lia. Qed.

(** ** C11 *)
Theorem C11_five_minutes e d0 amounts arg L draws pos out :
  (9 <= L <= 11)%nat -> Forall amount_ok amounts ->
  disagg_prec_cascade e (daily d0 amounts) arg false L 0 draws pos = Ok (Some out) ->
  map fst out = fivemin_index d0 (length amounts) /\
  forall i, (i < length amounts)%nat ->
    match nth i amounts NaN with
    | Fin r => exists vs, values_on (d0 + Z.of_nat i) out = map Fin vs /\ length vs = 288%nat /\
               Forall (fun v => 0 <= v)%R vs /\ Rsum vs = r
    | _ => values_on (d0 + Z.of_nat i) out = repeat NaN 288
    end.
Proof. exact (cascade_five_exact e d0 amounts arg L draws pos out). Qed.
Print Assumptions C11_five_minutes.
(** such a result exists *)
Theorem C11_returns e d0 amounts arg L shft draws pos :
  (9 <= L <= 11)%nat -> (2 <= length amounts)%nat -> Forall amount_ok amounts -> stats_fine arg draws L ->
  exists out, disagg_prec_cascade e (daily d0 amounts) arg false L shft draws pos = Ok (Some out).
Proof.
  intros HL Hl A S. destruct (cascade_five_total nnR nnR_branch nnR_dry centers_fine_xr e d0 amounts arg L shft draws pos
    HL Hl (fill0_nnR amounts A) S) as (r & E & _).
  exists (cr_out r). unfold disagg_prec_cascade. rewrite E. reflexivity.
Qed.
Print Assumptions C11_returns.
Example C11_met : exists out,
  disagg_prec_cascade modern (daily 0 ex_amounts) (COne ex_stats) false 9 0 ex_draws 0 = Ok (Some out).
Proof.
  destruct (cascade_five_total nnR nnR_branch nnR_dry centers_fine_xr modern 0 ex_amounts
              (COne ex_stats) 9 0 ex_draws 0) as (r & E & _).
  - lia.
  - cbn; lia.
  - apply fill0_nnR, ex_amounts_ok.
  - split; [cbn; lia|exact ex_stats_reach].
  - exists (cr_out r). unfold disagg_prec_cascade. rewrite E. reflexivity.
Qed.

(** ** C12: list statistics, spelled out for the five hourly levels *)
Theorem C12_level_statistics e d0 amounts c0 c1 c2 c3 c4 lvl shft draws pos :
  (2 <= length amounts)%nat -> Forall famount amounts ->
  Forall (fun c => threshold c <> [] /\ weights_reach c draws) [c0; c1; c2; c3; c4] ->
  exists r v1 v2 v3 v4 v5 p1 p2 p3 p4 p5 m0 m1 m2 m3 m4,
    disagg_prec_cascade_full e (daily d0 amounts) (CList [c0; c1; c2; c3; c4]) true lvl shft draws pos = Ok (Some r) /\
    cr_levels r = [v1; v2; v3; v4; v5] /\
    (hd_error (threshold c0) = Some m0 /\ hd_error (threshold c1) = Some m1 /\ hd_error (threshold c2) = Some m2 /\
     hd_error (threshold c3) = Some m3 /\ hd_error (threshold c4) = Some m4) /\
    row_steps c4 m4 draws (map fill0 amounts) 0 pos (map fill0 amounts) v1 p1 /\
    row_steps c3 m3 draws v1 0 p1 v1 v2 p2 /\
    row_steps c2 m2 draws v2 0 p2 v2 v3 p3 /\
    row_steps c1 m1 draws v3 0 p3 v3 v4 p4 /\
    row_steps c0 m0 draws v4 0 p4 v4 v5 p5.
Proof.
  intros L A S.
  destruct (C07_branching_rule_float e d0 amounts (CList [c0; c1; c2; c3; c4]) lvl shft draws pos L A (conj eq_refl S))
    as (r & E & CS).
  inversion CS as [|k p v c m o p' ar St RS CS1]; subst. destruct St as [St1 St2]. cbn in St1, St2.
  injection St1 as <-. clear CS. inversion CS1 as [|k p v c m' o' p'' ar' St RS1 CS2]; subst. destruct St as [St1 St3].
  cbn in St1, St3. injection St1 as <-. clear CS1.
  inversion CS2 as [|k p v c m'' o'' p3 ar'' St RS2 CS3]; subst. destruct St as [St1 St4].
  cbn in St1, St4. injection St1 as <-. clear CS2.
  inversion CS3 as [|k p v c m3 o3 p4 ar3 St RS3 CS4]; subst. destruct St as [St1 St5].
  cbn in St1, St5. injection St1 as <-. clear CS3.
  inversion CS4 as [|k p v c m4 o4 p5 ar4 St RS4 CS5]; subst. destruct St as [St1 St6].
  cbn in St1, St6. injection St1 as <-. clear CS4. inversion CS5; subst. 
  exists r. do 15 eexists. split; [exact E|]. split; [symmetry; eassumption|].
  split; [repeat split; first [exact St2|exact St3|exact St4|exact St5|exact St6]|].
  repeat split; eassumption.
Qed.
Print Assumptions C12_level_statistics.
Theorem C12_single_object e d0 amounts c lvl shft draws pos m0 m1 m2 m3 m4 more :
  (2 <= length amounts)%nat -> Forall famount amounts -> weights_reach c draws ->
  threshold c = m0 :: m1 :: m2 :: m3 :: m4 :: more ->
  exists r v1 v2 v3 v4 v5 p1 p2 p3 p4 p5,
    disagg_prec_cascade_full e (daily d0 amounts) (COne c) true lvl shft draws pos = Ok (Some r) /\
    cr_levels r = [v1; v2; v3; v4; v5] /\
    row_steps c m4 draws (map fill0 amounts) 0 pos (map fill0 amounts) v1 p1 /\
    row_steps c m3 draws v1 0 p1 v1 v2 p2 /\
    row_steps c m2 draws v2 0 p2 v2 v3 p3 /\
    row_steps c m1 draws v3 0 p3 v3 v4 p4 /\
    row_steps c m0 draws v4 0 p4 v4 v5 p5.
Proof.
  intros L A W Et.
  assert (SF : stats_fine (COne c) draws 5) by (split; [rewrite Et; cbn; lia|exact W]).
  destruct (C07_branching_rule_float e d0 amounts (COne c) lvl shft draws pos L A SF) as (r & E & CS).
  assert (INV : forall k p v arrays, cascade_steps (stats_of (COne c)) draws (S k) p v arrays ->
    exists m o p' ar, arrays = o :: ar /\ nth_error (threshold c) k = Some m /\
      row_steps c m draws v 0 p v o p' /\ cascade_steps (stats_of (COne c)) draws k p' o ar).
  { intros k p v arrays H. inversion H as [|k0 p0 v0 cc m o p' ar St RS CS']; subst.
    destruct St as [St1 St2]. cbn in St1, St2. subst cc. exists m, o, p', ar. auto. }
  apply INV in CS. destruct CS as (n4 & v1 & p1 & a1 & E1 & M4 & R1 & CS).
  apply INV in CS. destruct CS as (n3 & v2 & p2 & a2 & E2 & M3 & R2 & CS).
  apply INV in CS. destruct CS as (n2 & v3 & p3 & a3 & E3 & M2 & R3 & CS).
  apply INV in CS. destruct CS as (n1 & v4 & p4 & a4 & E4 & M1 & R4 & CS).
  apply INV in CS. destruct CS as (n0 & v5 & p5 & a5 & E5 & M0 & R5 & CS).
  inversion CS; subst a5. rewrite Et in *. cbn in M0, M1, M2, M3, M4.
  injection M0 as <-. injection M1 as <-. injection M2 as <-. injection M3 as <-. injection M4 as <-.
  subst a1 a2 a3 a4.
  exists r, v1, v2, v3, v4, v5, p1, p2, p3, p4, p5. split; [exact E|]. split; [exact E1|].
  repeat split; assumption.
Qed.
Print Assumptions C12_single_object.
Example C12_met : Forall (fun c => threshold c <> [] /\ weights_reach c (fun _ => umax))
  [ex_eighths; ex_eighths; ex_eighths; ex_eighths; ex_eighths].
Proof.
  repeat (apply Forall_cons; [split; [discriminate|intros j b t _ _; vm_compute; reflexivity]|]). constructor.
Qed.

(** ** C68 *)
Theorem C68_hours_from_boxes e d0 amounts arg lvl draws pos r :
  Forall amount_ok amounts ->
  disagg_prec_cascade_full e (daily d0 amounts) arg true lvl 0 draws pos = Ok (Some r) ->
  exists boxes, last (cr_levels r) [] = map Fin boxes /\ length boxes = (32 * length amounts)%nat /\
  forall i x, nth_error amounts i = Some (Fin x) ->
    values_on (d0 + Z.of_nat i) (cr_out r)
    = map (fun h => Fin (hour_of_boxes boxes (24 * i + h))) (seq 0 24).
Proof. exact (cascade_hours_from_boxes e d0 amounts arg lvl draws pos r). Qed.
Print Assumptions C68_hours_from_boxes.
Example C68_hour : hour_of_boxes [3; 6; 9]%R 0 = 5%R.
Proof. unfold hour_of_boxes, quarter. cbn [Nat.mul Nat.add Nat.div Nat.divmod fst nth]. lra. Qed.
