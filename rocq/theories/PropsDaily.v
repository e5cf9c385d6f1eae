(** Property C29, all columns of daily_from_hourly. *)
From Coq Require Import String ZArith List Bool Lia Reals Lra.
From Verif Require Import Py Num Cal Series UtilModel UtilModel2 SpecBase SpecUtil SpecDaily TimeProofs IndexProofs DaysProofs UtilProofs CourseProofs.
Import ListNotations.
Open Scope Z_scope.

Definition agg_of (out : string) : series xr -> series xr :=
  if String.eqb out "precip" then day_sum else if String.eqb out "ssd" then day_ssd
  else if String.eqb out "tmin" || String.eqb out "hum_min" then day_min
  else if String.eqb out "tmax" || String.eqb out "hum_max" then day_max else day_mean.
Definition outs : list string := ["temp"; "tmin"; "tmax"; "precip"; "glob"; "hum"; "hum_min"; "hum_max"; "wind"; "ssd"]%string.
Lemma source_outs out src : daily_source out = Some src -> In out outs.
Proof.
  unfold daily_source, outs.
  repeat match goal with |- context [String.eqb out ?n] => destruct (String.eqb_spec out n) as [->|]; [cbn; intros _; tauto|] end.
  cbn. discriminate.
Qed.
Lemma outs_source out : In out outs -> exists src, daily_source out = Some src.
Proof. intro H. cbn in H. repeat (destruct H as [<-|H]; [eexists; reflexivity|]). destruct H. Qed.
Lemma get_col_app (a b : frame xr) n : get_col n (a ++ b) = match get_col n a with Some s => Some s | None => get_col n b end.
Proof. induction a as [|[m s] a IH]; [reflexivity|]. cbn [app get_col]. destruct (String.eqb m n); [reflexivity|exact IH]. Qed.
Lemma get_col_add (df : frame xr) name out agg n : get_col n (add_col df name out agg) =
  if String.eqb out n then match get_col name df with Some s => Some (agg s) | None => None end else None.
Proof. unfold add_col. destruct (get_col name df); cbn [get_col]; destruct (String.eqb out n); reflexivity. Qed.
Lemma daily_col_eq (df : frame xr) out : get_col out (daily_from_hourly df) =
  match daily_source out with
  | Some src => match get_col src df with Some s => Some (agg_of out s) | None => None end
  | None => None
  end.
Proof.
  destruct (daily_source out) as [src|] eqn:E.
  - pose proof (source_outs _ _ E) as H. cbn in H. unfold daily_from_hourly. rewrite !get_col_app, !get_col_add.
    repeat (destruct H as [<-|H]; [cbn in E; apply (f_equal (fun x => match x with Some y => y | None => EmptyString end)) in E; cbv iota in E; subst src; cbn [String.eqb Ascii.eqb Bool.eqb];
      destruct (get_col _ df); reflexivity|]). destruct H.
  - unfold daily_from_hourly. rewrite !get_col_app, !get_col_add.
    assert (NI : ~ In out outs) by (intro H; apply outs_source in H as (s & H); congruence). unfold outs in NI. cbn in NI.
    repeat match goal with |- context [String.eqb ?n out] => destruct (String.eqb_spec n out) as [Q|]; [exfalso; tauto|] end. reflexivity.
Qed.
Lemma ssd_lookup (s : series xr) t : lookup t (day_ssd s) = match lookup t (day_sum s) with Some v => Some (v / n_ofZ 60)%num | None => None end.
Proof.
  unfold day_ssd. generalize (day_sum s). intro l. unfold lookup. induction l as [|[u v] l IH]; [reflexivity|]. cbn [map find fst snd]. destruct (u =? t); [reflexivity|exact IH].
Qed.

(** every column present in the input produces its daily columns, with the day's mean, sum, extreme
    value or, for the sunshine duration, the sum in hours; nothing else is produced *)
Theorem C29_columns (df : frame xr) out src (s : series xr) t r : daily_source out = Some src -> get_col src df = Some s -> numeric (map snd s) -> In (t, Fin r) s ->
  exists col v, get_col out (daily_from_hourly df) = Some col /\ entry_of (midnight (date_of t)) col = Some (Fin v) /\ daily_value out (fins (values_on (date_of t) s)) v.
Proof.
  intros ES EC HN HI. exists (agg_of out s). rewrite daily_col_eq, ES, EC.
  assert (IT : In t (map fst s)) by (apply in_map_iff; exists (t, Fin r); auto).
  unfold midnight. rewrite entry_lookup. set (l := values_on (date_of t) s).
  assert (IL : In (Fin r) l) by (unfold l, values_on; apply in_map_iff; exists (t, Fin r); split; [reflexivity|]; apply filter_In; split; [exact HI|apply Z.eqb_refl]).
  assert (NL : numeric l) by (apply values_on_numeric; exact HN).
  assert (NE : fins l <> []) by (apply fins_In in IL; destruct (fins l); [destruct IL|discriminate]).
  assert (D : forall agg : list xr -> xr, lookup (date_of t * us_day) (resample us_day agg s) = Some (agg l)) by (intro agg; apply resample_day, IT).
  unfold agg_of, daily_value. destruct (String.eqb out "precip").
  { unfold day_sum. rewrite D, (nansum_numeric l NL). eexists. repeat split. }
  destruct (String.eqb out "ssd").
  { rewrite ssd_lookup. unfold day_sum. rewrite D, (nansum_numeric l NL). change (n_ofZ 60) with (Fin 60). rewrite xdiv_Fin by lra. eexists. repeat split. }
  destruct (_ || _); [unfold day_min; rewrite D; destruct (nanmin_numeric l NL NE) as (m & -> & M); exists m; repeat split; apply M|].
  destruct (_ || _); [unfold day_max; rewrite D; destruct (nanmax_numeric l NL NE) as (m & -> & M); exists m; repeat split; apply M|].
  unfold day_mean. rewrite D, (nanmean_numeric l NL NE). eexists. repeat split.
Qed.
Print Assumptions C29_columns.
Theorem C29_no_other_columns (df : frame xr) out : (forall src, daily_source out = Some src -> get_col src df = None) -> get_col out (daily_from_hourly df) = None.
Proof. intro H. rewrite daily_col_eq. destruct (daily_source out) as [src|]; [|reflexivity]. rewrite (H src eq_refl). reflexivity. Qed.
Print Assumptions C29_no_other_columns.
(** a recorded day without a single valid hour is missing, except that its sums are 0 *)
Theorem C29_missing_day (df : frame xr) out src (s : series xr) t : daily_source out = Some src -> get_col src df = Some s ->
  In t (map fst s) -> (forall x, In x (values_on (date_of t) s) -> x = NaN) ->
  exists col, get_col out (daily_from_hourly df) = Some col /\ entry_of (midnight (date_of t)) col = Some (if daily_summed out then Fin 0 else NaN).
Proof.
  intros ES EC IT HX. exists (agg_of out s). rewrite daily_col_eq, ES, EC. split; [reflexivity|]. unfold midnight. rewrite entry_lookup. set (l := values_on (date_of t) s) in *.
  assert (D : forall agg : list xr -> xr, lookup (date_of t * us_day) (resample us_day agg s) = Some (agg l)) by (intro agg; apply resample_day, IT).
  assert (EV : valid l = []).
  { clear - HX. induction l as [|x l IH]; [reflexivity|]. unfold valid in *. cbn [filter]. rewrite (HX x (or_introl eq_refl)). apply IH. intros y Hy. apply HX. right. exact Hy. }
  unfold agg_of, daily_summed. destruct (String.eqb out "precip"); [unfold day_sum; rewrite D; unfold nansum; rewrite EV; reflexivity|].
  destruct (String.eqb out "ssd"); cbn [orb].
  { rewrite ssd_lookup. unfold day_sum. rewrite D. unfold nansum. rewrite EV. cbn [fold_left]. change (n_ofZ 60) with (Fin 60). change n0 with (Fin 0). rewrite xdiv_Fin by lra. do 2 f_equal. lra. }
  destruct (_ || _); [unfold day_min; rewrite D; unfold nanmin; rewrite EV; reflexivity|].
  destruct (_ || _); [unfold day_max; rewrite D; unfold nanmax; rewrite EV; reflexivity|].
  unfold day_mean. rewrite D. unfold nanmean. rewrite EV. reflexivity.
Qed.
Print Assumptions C29_missing_day.
(** two half hours of sun, and a day without observations *)
Example C29_columns_met : let s := [(0, Fin 30); (us_hour, NaN); (2 * us_hour, Fin 30); (us_day, NaN)] in let df := [("ssd"%string, s)] in
  (exists col v, get_col "ssd" (daily_from_hourly df) = Some col /\ entry_of 0 col = Some (Fin v) /\ v = 1%R) /\
  (exists col, get_col "ssd" (daily_from_hourly df) = Some col /\ entry_of us_day col = Some (Fin 0)) /\
  get_col "temp" (daily_from_hourly df) = None.
Proof.
  cbv zeta. set (s := [(0, Fin 30); (us_hour, NaN); (2 * us_hour, Fin 30); (us_day, NaN)]). split; [|split].
  - destruct (C29_columns [("ssd"%string, s)] "ssd" "ssd" s 0 30 eq_refl eq_refl) as (col & v & A & B & C); [repeat constructor|left; reflexivity|].
    exists col, v. split; [exact A|]. split; [exact B|]. unfold daily_value in C. cbn in C. rewrite C. unfold Rsum. cbn. lra.
  - apply (C29_missing_day [("ssd"%string, s)] "ssd" "ssd" s us_day eq_refl eq_refl); [right; right; right; left; reflexivity|]. intros x Hx. cbn in Hx. destruct Hx as [<-|[]]. reflexivity.
  - apply C29_no_other_columns. intros src E. injection E as <-. reflexivity.
Qed.
