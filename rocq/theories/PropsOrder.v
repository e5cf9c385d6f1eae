(** C98: the order of disaggregation calls. *)
From Coq Require Import List String ZArith Bool Lia Reals Lra.
From Verif Require Import Py Num Cal Series Frame WindModel HumModel TempModel RadModel PrecipModel StationModel
  SpecBase SpecStation SpecTemp SpecUtil SpecOrder UtilModel2 StationProofs OrderProofs SpecHum SpecRad HumProofs PropsHum PropsTemp PropsUtil.
Import ListNotations.
Local Open Scope string_scope.
Local Open Scope list_scope.

Lemma write_state c r d st : s_disagg st = Some d ->
  exists d', s_disagg (fst (write c r d st)) = Some d' /\ f_index d' = f_index d /\
    map fst (f_cols d') = map fst (f_cols d) /\ s_sun (fst (write c r d st)) = s_sun st /\
    forall c', c' <> c -> assoc c' (f_cols d') = assoc c' (f_cols d).
Proof.
  intro E. destruct r as [l|x]; cbn [write fst].
  - exists (put_column c l d). cbn [with_disagg s_disagg s_sun]. destruct (put_column_ok c l d) as (A & B & C). auto 6.
  - exists d. auto 6.
Qed.

(** Two calls for different columns, neither of which needs the other's result, can be exchanged: the
    same station afterwards and the same exceptions, if the sun times are there already. *)
Theorem C98_order : forall e q st o1 o2 c1 c2,
  s_disagg st <> None -> s_sun st <> None ->
  fills o1 = Some c1 -> fills o2 = Some c2 -> c1 <> c2 -> ~ dependent c1 c2 ->
  session e q st [o1; o2] = session e q st [o2; o1] /\
  fails e q (session e q st [o1]) o2 = fails e q st o2 /\
  fails e q (session e q st [o2]) o1 = fails e q st o1.
Proof.
  intros e q st o1 o2 c1 c2 D S F1 F2 N ND. destruct (s_disagg st) as [d|] eqn:E; [|congruence]. clear D.
  unfold session, fails. cbn [fold_left].
  assert (G : forall oa ob ca cb, fills oa = Some ca -> fills ob = Some cb -> ca <> cb -> ~ (ca = "temp" /\ cb = "hum") ->
    let st1 := fst (run_data e q st oa) in
    exists d1, s_disagg st1 = Some d1 /\ d1 = match result e q st d oa with Ok l => put_column ca l d | Err _ => d end /\
      run_data e q st1 ob = write cb (result e q st d ob) d1 st1).
  { intros oa ob ca cb Fa Fb Nc ND1 st1. unfold st1. rewrite (run_write e q st d oa ca E S Fa).
    destruct (write_state ca (result e q st d oa) d st E) as (d1 & E1 & I1 & _ & S1 & K1).
    exists d1. split; [exact E1|]. split.
    { destruct (result e q st d oa); cbn [write fst with_disagg s_disagg] in E1; congruence. }
    rewrite (run_write e q _ d1 ob cb E1 ltac:(rewrite S1; exact S) Fb). f_equal.
    apply (result_input e q _ st d1 d ob cb); [apply same_input_write, E|exact I1|exact Fb|].
    intro Hh. apply K1. intro Ht. apply ND1. split; [symmetry; exact Ht|exact Hh]. }
  destruct (G o1 o2 c1 c2 F1 F2 N) as (d1 & E1 & D1 & R1). { intro H. apply ND. left. exact H. }
  destruct (G o2 o1 c2 c1 F2 F1 (not_eq_sym N)) as (d2 & E2 & D2 & R2). { intros [H1 H2]. apply ND. right. auto. }
  rewrite R1, R2. rewrite (run_write e q st d o1 c1 E S F1), (run_write e q st d o2 c2 E S F2).
  subst d1 d2. destruct (result e q st d o1) as [l1|x1], (result e q st d o2) as [l2|x2]; cbn [write fst snd];
    (split; [|split; reflexivity]); try reflexivity.
  unfold with_disagg. cbn. rewrite (put_comm c2 c1) by congruence. reflexivity.
Qed.
Print Assumptions C98_order.

(** Repeating a call changes nothing and raises the same, for every call (equal draws given). *)
Theorem C98_repeat : forall e q st o c, s_disagg st <> None -> s_sun st <> None -> fills o = Some c ->
  session e q st [o; o] = session e q st [o] /\ fails e q (session e q st [o]) o = fails e q st o.
Proof.
  intros e q st o c D S F. destruct (s_disagg st) as [d|] eqn:E; [|congruence]. clear D.
  unfold session, fails. cbn [fold_left]. pose proof (run_write e q st d o c E S F) as R.
  destruct (write_state c (result e q st d o) d st E) as (d1 & E1 & I1 & _ & S1 & K1). rewrite <- R in E1, S1.
  assert (R2 : run_data e q (fst (run_data e q st o)) o = write c (result e q st d o) d1 (fst (run_data e q st o))).
  { rewrite (run_write e q _ d1 o c E1 ltac:(rewrite S1; exact S) F). f_equal.
    apply (result_input e q _ st d1 d o c); [rewrite R; apply same_input_write, E|exact I1|exact F|].
    intros ->. apply K1. discriminate. }
  rewrite R2. rewrite R in E1 |- *. destruct (result e q st d o) as [l|x]; cbn [write fst snd with_disagg s_disagg] in E1 |- *; [|auto].
  apply (f_equal (fun o => match o with Some d => d | None => d end)) in E1. subst d1. split; [|reflexivity].
  unfold with_disagg. cbn. rewrite put_twice. reflexivity.
Qed.
Print Assumptions C98_repeat.

(** what calls keep *)
Lemma session_state e q ops : forall st d, s_disagg st = Some d -> s_sun st <> None ->
  (forall o, In o ops -> fills o <> None) ->
  exists d', s_disagg (session e q st ops) = Some d' /\ f_index d' = f_index d /\
    map fst (f_cols d') = map fst (f_cols d) /\ same_input (session e q st ops) st /\
    forall c, (forall o, In o ops -> fills o <> Some c) -> assoc c (f_cols d') = assoc c (f_cols d).
Proof.
  induction ops as [|o ops IH]; intros st d E S A.
  - exists d. cbn. repeat split; try assumption. destruct (s_disagg st); [reflexivity|exact I].
  - unfold session. cbn [fold_left]. fold (session e q (fst (run_data e q st o)) ops).
    destruct (fills o) as [c|] eqn:F; [|exfalso; apply (A o); [left; reflexivity|exact F]].
    rewrite (run_write e q st d o c E S F).
    destruct (write_state c (result e q st d o) d st E) as (d1 & E1 & I1 & N1 & S1 & K1).
    destruct (IH _ d1 E1 ltac:(rewrite S1; exact S) (fun o' H => A o' (or_intror H))) as (d' & E' & I' & N' & SI & K').
    exists d'. split; [exact E'|]. split; [congruence|]. split; [congruence|]. split.
    + eapply same_input_trans; [exact SI|apply same_input_write, E].
    + intros c' H. rewrite (K' c' (fun o' Ho => H o' (or_intror Ho))). apply K1. intros ->. apply (H o); [left; reflexivity|exact F].
Qed.

(** Whatever calls came before, a call that does not compute humidity fails exactly as it would on the
    untouched station, and when it succeeds its column holds exactly the same values. *)
Theorem C98_anywhere : forall e q st ops o c,
  s_disagg st <> None -> s_sun st <> None -> (forall o', In o' ops -> fills o' <> None) ->
  fills o = Some c -> c <> "hum" ->
  fails e q (session e q st ops) o = fails e q st o /\
  (fails e q st o = None -> hourly_column (session e q st (ops ++ [o])) c = hourly_column (session e q st [o]) c).
Proof.
  intros e q st ops o c D S A F NH. destruct (s_disagg st) as [d|] eqn:E; [|congruence]. clear D.
  destruct (session_state e q ops st d E S A) as (d1 & E1 & I1 & N1 & SI & K1).
  assert (S1 : s_sun (session e q st ops) <> None) by (destruct SI as (_ & _ & _ & _ & -> & _); exact S).
  assert (R : result e q (session e q st ops) d1 o = result e q st d o).
  { apply (result_input e q _ st d1 d o c SI I1 F). intro H. contradiction. }
  unfold fails. rewrite (run_write e q st d o c E S F), (run_write e q _ d1 o c E1 S1 F), R. split.
  - destruct (result e q st d o); reflexivity.
  - intro H. unfold session at 1. rewrite fold_left_app. fold (session e q st ops). unfold session at 2. cbn [fold_left].
    rewrite (run_write e q st d o c E S F), (run_write e q _ d1 o c E1 S1 F), R.
    destruct (result e q st d o) as [l|x]; cbn [write fst snd] in H |- *; [|discriminate].
    unfold hourly_column. cbn [with_disagg s_disagg].
    destruct (in_dec String.string_dec c (map fst (f_cols d))) as [HI|HN].
    + rewrite !put_assoc by (try rewrite N1; exact HI). reflexivity.
    + assert (Z : forall dd : dframe xr, ~ In c (map fst (f_cols dd)) -> assoc c (f_cols dd) = None).
      { intros dd. induction (f_cols dd) as [|[k v] r IH]; intro Hn; [reflexivity|]. cbn [assoc]. 
        destruct (String.eqb_spec k c) as [->|]; [exfalso; apply Hn; left; reflexivity|]. apply IH. intro Hk. apply Hn. right. exact Hk. }
      rewrite !Z; [reflexivity| |]; rewrite (proj1 (proj2 (put_column_ok _ _ _))); [exact HN|rewrite N1; exact HN].
Qed.
Print Assumptions C98_anywhere.

(** So after a session of calls in any order every hourly column other than humidity holds what the last
    successful call for it would have given alone, and is unchanged if there was none. *)
Theorem C98_last_call : forall e q st ops1 o ops2 c,
  s_disagg st <> None -> s_sun st <> None -> (forall o', In o' (ops1 ++ o :: ops2) -> fills o' <> None) ->
  fills o = Some c -> c <> "hum" -> fails e q st o = None ->
  (forall o', In o' ops2 -> fills o' = Some c -> fails e q st o' <> None) ->
  hourly_column (session e q st (ops1 ++ o :: ops2)) c = hourly_column (session e q st [o]) c.
Proof.
  intros e q st ops1 o ops2 c D S A F NH OK LATER.
  revert A LATER. induction ops2 as [|o2 ops2 IH] using rev_ind; intros A LATER.
  - apply (C98_anywhere e q st ops1 o c D S); try assumption. intros o' H. apply A. apply in_or_app. left. exact H.
  - replace (ops1 ++ o :: ops2 ++ [o2]) with ((ops1 ++ o :: ops2) ++ [o2]) in A |- * by (rewrite <- app_assoc; reflexivity).
    assert (IHU : hourly_column (session e q st (ops1 ++ o :: ops2)) c = hourly_column (session e q st [o]) c).
    { apply IH.
      - intros o' H. apply A. apply in_or_app. left. exact H.
      - intros o' H. apply LATER. apply in_or_app. left. exact H. }
    rewrite <- IHU. clear IHU IH.
    assert (A1 : forall o', In o' (ops1 ++ o :: ops2) -> fills o' <> None) by (intros o' H; apply A; apply in_or_app; left; exact H).
    destruct (fills o2) as [c2|] eqn:F2; [|exfalso; apply (A o2); [apply in_or_app; right; left; reflexivity|exact F2]].
    destruct (s_disagg st) as [d|] eqn:E; [|congruence].
    destruct (session_state e q _ st d E S A1) as (d1 & E1 & I1 & N1 & SI & K1).
    assert (S1 : s_sun (session e q st (ops1 ++ o :: ops2)) <> None) by (destruct SI as (_ & _ & _ & _ & -> & _); exact S).
    unfold session at 1. rewrite fold_left_app. fold (session e q st (ops1 ++ o :: ops2)). cbn [fold_left].
    rewrite (run_write e q _ d1 o2 c2 E1 S1 F2).
    destruct (string_dec c2 c) as [->|NC].
    + assert (X : fails e q st o2 <> None) by (apply LATER; [apply in_or_app; right; left; reflexivity|exact F2]).
      assert (R : result e q (session e q st (ops1 ++ o :: ops2)) d1 o2 = result e q st d o2).
      { apply (result_input e q _ st d1 d o2 c SI I1 F2). intro H. contradiction. }
      rewrite R. unfold fails in X. rewrite (run_write e q st d o2 c E S F2) in X.
      destruct (result e q st d o2) as [l|x]; cbn [write fst snd] in X |- *; [congruence|reflexivity].
    + destruct (write_state c2 (result e q (session e q st (ops1 ++ o :: ops2)) d1 o2) d1 _ E1) as (d2 & E2 & _ & _ & _ & K2).
      unfold hourly_column. rewrite E2, E1. apply K2. congruence.
Qed.
Print Assumptions C98_last_call.

Theorem C98_untouched : forall e q st ops c, s_disagg st <> None -> s_sun st <> None ->
  (forall o, In o ops -> fills o <> None) -> c <> "hum" ->
  (forall o, In o ops -> fills o = Some c -> fails e q st o <> None) ->
  hourly_column (session e q st ops) c = hourly_column st c.
Proof.
  intros e q st ops c D S A NH BAD. destruct (s_disagg st) as [d|] eqn:E; [|congruence]. clear D.
  revert A BAD. induction ops as [|o ops IH] using rev_ind; intros A BAD; [reflexivity|].
  assert (A1 : forall o', In o' ops -> fills o' <> None) by (intros o' H; apply A; apply in_or_app; left; exact H).
  rewrite <- (IH A1 (fun o' H => BAD o' (in_or_app _ _ _ (or_introl H)))). clear IH.
  destruct (fills o) as [c2|] eqn:F2; [|exfalso; apply (A o); [apply in_or_app; right; left; reflexivity|exact F2]].
  destruct (session_state e q ops st d E S A1) as (d1 & E1 & I1 & N1 & SI & K1).
  assert (S1 : s_sun (session e q st ops) <> None) by (destruct SI as (_ & _ & _ & _ & -> & _); exact S).
  unfold session at 1. rewrite fold_left_app. fold (session e q st ops). cbn [fold_left].
  rewrite (run_write e q _ d1 o c2 E1 S1 F2).
  destruct (string_dec c2 c) as [->|NC].
  - assert (X : fails e q st o <> None) by (apply BAD; [apply in_or_app; right; left; reflexivity|exact F2]).
    assert (R : result e q (session e q st ops) d1 o = result e q st d o).
    { apply (result_input e q _ st d1 d o c SI I1 F2). intro H. contradiction. }
    rewrite R. unfold fails in X. rewrite (run_write e q st d o c E S F2) in X.
    destruct (result e q st d o) as [l|x]; cbn [write fst snd] in X |- *; [congruence|reflexivity].
  - destruct (write_state c2 (result e q (session e q st ops) d1 o) d1 _ E1) as (d2 & E2 & _ & _ & _ & K2).
    unfold hourly_column. rewrite E2, E1. apply K2. congruence.
Qed.
Print Assumptions C98_untouched.

(** Humidity: of the earlier calls only those for temperature matter. It is not updated when the
    temperature is computed anew afterwards (deviation). *)
Lemma session_split e q st a b : session e q st (a ++ b) = session e q (session e q st a) b.
Proof. unfold session. apply fold_left_app. Qed.
Definition is_temp (o : data_op) : bool := match o with DTemp _ _ _ => true | _ => false end.
Lemma temp_calls_only e q ops : forall a b da db, s_disagg a = Some da -> s_disagg b = Some db ->
  same_input a b -> s_sun a <> None -> map fst (f_cols da) = map fst (f_cols db) ->
  (forall o, In o ops -> fills o <> None) ->
  assoc "temp" (f_cols da) = assoc "temp" (f_cols db) ->
  hourly_column (session e q a ops) "temp" = hourly_column (session e q b (filter is_temp ops)) "temp".
Proof.
  induction ops as [|o ops IH]; intros a b da db Ea Eb SI S NN A T.
  - unfold hourly_column. cbn. rewrite Ea, Eb. exact T.
  - assert (Sb : s_sun b <> None) by (destruct SI as (_ & _ & _ & _ & <- & _); exact S).
    assert (II : f_index da = f_index db) by (destruct SI as (_ & _ & _ & _ & _ & H); rewrite Ea, Eb in H; exact H).
    destruct (fills o) as [c|] eqn:F; [|exfalso; apply (A o); [left; reflexivity|exact F]].
    destruct (write_state c (result e q a da o) da a Ea) as (d1 & E1 & I1 & N1 & S1 & K1).
    change (session e q a (o :: ops)) with (session e q (fst (run_data e q a o)) ops).
    rewrite (run_write e q a da o c Ea S F). cbn [filter]. destruct (is_temp o) eqn:IT.
    + change (session e q b (o :: filter is_temp ops)) with (session e q (fst (run_data e q b o)) (filter is_temp ops)).
      assert (c = "temp") as -> by (destruct o; cbn in IT, F; congruence).
      assert (R : result e q a da o = result e q b db o) by (apply (result_input e q a b da db o "temp" SI II F); discriminate).
      rewrite (run_write e q b db o "temp" Eb Sb F), <- R.
      destruct (write_state "temp" (result e q a da o) db b Eb) as (d2 & E2 & I2 & N2 & S2 & K2).
      apply (IH _ _ d1 d2 E1 E2).
      * eapply same_input_trans; [apply same_input_write, Ea|]. eapply same_input_trans; [exact SI|].
        destruct (same_input_write "temp" (result e q a da o) db b Eb) as (B1 & B2 & B3 & B4 & B5 & B6).
        unfold same_input. repeat apply conj; try congruence. rewrite Eb, E2. congruence.
      * rewrite S1. exact S.
      * congruence.
      * intros o' H. apply A. right. exact H.
      * destruct (result e q a da o) as [l|x]; cbn [write fst with_disagg s_disagg] in E1, E2.
        -- apply (f_equal (fun o => match o with Some d => d | None => da end)) in E1. subst d1.
           apply (f_equal (fun o => match o with Some d => d | None => db end)) in E2. subst d2.
           destruct (in_dec string_dec "temp" (map fst (f_cols da))) as [HI|HN].
           ++ rewrite !put_assoc by (try rewrite <- NN; exact HI). reflexivity.
           ++ assert (Z : forall dd : dframe xr, ~ In "temp" (map fst (f_cols dd)) -> assoc "temp" (f_cols dd) = None).
              { intros dd. induction (f_cols dd) as [|[k v] r IHl]; intro Hn; [reflexivity|]. cbn [assoc].
                destruct (String.eqb_spec k "temp") as [->|]; [exfalso; apply Hn; left; reflexivity|]. apply IHl. intro Hk. apply Hn. right. exact Hk. }
              rewrite !Z; [reflexivity| |]; rewrite (proj1 (proj2 (put_column_ok _ _ _))); [rewrite <- NN; exact HN|exact HN].
        -- congruence.
    + assert (NT : "temp" <> c) by (intros <-; destruct o; cbn in IT, F; congruence).
      apply (IH _ b d1 db E1 Eb).
      * eapply same_input_trans; [apply same_input_write, Ea|exact SI].
      * rewrite S1. exact S.
      * congruence.
      * intros o' H. apply A. right. exact H.
      * rewrite (K1 "temp" NT). exact T.
Qed.
Theorem C98_humidity : forall e q st before o after,
  s_disagg st <> None -> s_sun st <> None -> (forall o', In o' (before ++ o :: after) -> fills o' <> None) ->
  fills o = Some "hum" -> (forall o', In o' after -> fills o' <> Some "hum") ->
  fails e q (session e q st before) o = fails e q (session e q st (filter is_temp before)) o /\
  (fails e q (session e q st before) o = None -> In "hum" (match s_disagg st with Some d => map fst (f_cols d) | None => [] end) ->
   hourly_column (session e q st (before ++ o :: after)) "hum"
   = hourly_column (session e q st (filter is_temp before ++ [o])) "hum").
Proof.
  intros e q st before o after D S A F NA. destruct (s_disagg st) as [d|] eqn:E; [|congruence]. clear D.
  assert (AB : forall o', In o' before -> fills o' <> None) by (intros o' H; apply A, in_or_app; left; exact H).
  assert (AF : forall o', In o' (filter is_temp before) -> fills o' <> None) by (intros o' H; apply AB; apply filter_In in H; apply H).
  destruct (session_state e q before st d E S AB) as (d1 & E1 & I1 & N1 & SI1 & K1).
  destruct (session_state e q (filter is_temp before) st d E S AF) as (d2 & E2 & I2 & N2 & SI2 & K2).
  assert (T : assoc "temp" (f_cols d1) = assoc "temp" (f_cols d2)).
  { pose proof (temp_calls_only e q before st st d d E E (same_input_refl st) S eq_refl AB eq_refl) as H.
    unfold hourly_column in H. rewrite E1, E2 in H. exact H. }
  assert (S1 : s_sun (session e q st before) <> None) by (destruct SI1 as (_ & _ & _ & _ & -> & _); exact S).
  assert (S2 : s_sun (session e q st (filter is_temp before)) <> None) by (destruct SI2 as (_ & _ & _ & _ & -> & _); exact S).
  assert (R : result e q (session e q st before) d1 o = result e q (session e q st (filter is_temp before)) d2 o).
  { destruct SI1 as (B1 & B2 & B3 & B4 & B5 & B6), SI2 as (C1 & C2 & C3 & C4 & C5 & C6).
    apply (result_input e q _ _ d1 d2 o "hum"); [|congruence|exact F|intros _; exact T].
    unfold same_input. repeat apply conj; try congruence. rewrite E1, E2. congruence. }
  unfold fails. rewrite (run_write e q _ d1 o "hum" E1 S1 F), (run_write e q _ d2 o "hum" E2 S2 F), R. split.
  - destruct (result e q (session e q st (filter is_temp before)) d2 o); reflexivity.
  - intros OK HI.
    replace (before ++ o :: after) with ((before ++ [o]) ++ after) by (rewrite <- app_assoc; reflexivity).
    assert (X : hourly_column (session e q st (before ++ [o])) "hum" = hourly_column (session e q st (filter is_temp before ++ [o])) "hum").
    { rewrite !session_split.
      change (session e q (session e q st before) [o]) with (fst (run_data e q (session e q st before) o)).
      change (session e q (session e q st (filter is_temp before)) [o]) with (fst (run_data e q (session e q st (filter is_temp before)) o)).
      rewrite (run_write e q _ d1 o "hum" E1 S1 F), (run_write e q _ d2 o "hum" E2 S2 F), R.
      destruct (result e q (session e q st (filter is_temp before)) d2 o) as [l|x]; cbn [write fst snd] in OK |- *; [|discriminate].
      unfold hourly_column. cbn [with_disagg s_disagg]. rewrite !put_assoc by (rewrite ?N1, ?N2; exact HI). reflexivity. }
    rewrite <- X. rewrite session_split.
    assert (AO : forall o', In o' (before ++ [o]) -> fills o' <> None).
    { intros o' H. apply A. apply in_app_or in H. apply in_or_app. destruct H as [H|[<-|[]]]; [left; exact H|right; left; reflexivity]. }
    destruct (session_state e q _ st d E S AO) as (d3 & E3 & I3 & N3 & SI3 & K3).
    assert (S3 : s_sun (session e q st (before ++ [o])) <> None) by (destruct SI3 as (_ & _ & _ & _ & -> & _); exact S).
    destruct (session_state e q after _ d3 E3 S3) as (d4 & E4 & _ & _ & _ & K4).
    { intros o' H. apply A. apply in_or_app. right. right. exact H. }
    unfold hourly_column. rewrite E4, E3. apply K4. exact NA.
Qed.
Print Assumptions C98_humidity.

(** Without sun times (data assigned before the time zone was known) the order does matter: the sine
    methods for temperature fail, and work after any call for radiation, even one that failed
    (deviation). *)
Definition located (st : station) (dd : dframe xr) (lon lat tz : xr) : Prop :=
  s_lon st = Some lon /\ s_lat st = Some lat /\ s_tz st = Some tz /\ s_daily st = Some dd.
Theorem C98_sun_times : forall e q st dd lon lat tz m t n mr pot,
  located st dd lon lat tz -> s_sun st = None -> (m = "sine_min_max" \/ m = "sine_mean" \/ m = "sine") ->
  fails e q st (DTemp m t n) <> None /\
  s_sun (session e q st [DRad mr pot]) = Some (get_sun_times (f_index dd) lon lat tz) /\
  fails e q (session e q st [DRad mr pot]) (DTemp m t n) = fails e q (session e q st [DSun]) (DTemp m t n) /\
  (fails e q (session e q st [DSun]) (DTemp m t n) = None ->
   hourly_column (session e q st [DRad mr pot; DTemp m t n]) "temp" = hourly_column (session e q st [DSun; DTemp m t n]) "temp").
Proof.
  intros e q st dd lon lat tz m t n mr pot (L1 & L2 & L3 & L4) S HM.
  assert (CS : calc_sun_times st = (with_sun st (Some (get_sun_times (f_index dd) lon lat tz)), None)).
  { unfold calc_sun_times. rewrite L1, L2, L3, L4. reflexivity. }
  set (st1 := with_sun st (Some (get_sun_times (f_index dd) lon lat tz))) in *.
  assert (RS : session e q st [DSun] = st1) by (unfold session; cbn [fold_left run_data]; rewrite CS; reflexivity).
  assert (RR : exists r, run_data e q st (DRad mr pot) = finish "glob" r st1 /\ True).
  { cbn [run_data]. unfold st_radiation. rewrite S, CS. eexists. split; [reflexivity|exact I]. }
  destruct RR as (r & RR & _).
  assert (RRS : session e q st [DRad mr pot] = fst (finish "glob" r st1)) by (unfold session; cbn [fold_left]; rewrite RR; reflexivity).
  split; [|split; [|]].
  - unfold fails. cbn [run_data]. unfold st_temperature, daily_frame_temp. rewrite L4. cbn [bind]. rewrite S.
    destruct (C71_default_sun_times e dd m t n (q_delta q) (q_tcourse q) HM) as (err & ->). cbn [finish snd]. discriminate.
  - rewrite RRS. destruct r as [s|x]; cbn [finish]; [|reflexivity]. unfold put_series.
    destruct (s_disagg st1); [|reflexivity]. destruct (same_labels _ _); [reflexivity|]. destruct (has_dup _); reflexivity.
  - change (session e q st [DRad mr pot; DTemp m t n]) with (fst (run_data e q (session e q st [DRad mr pot]) (DTemp m t n))).
    change (session e q st [DSun; DTemp m t n]) with (fst (run_data e q (session e q st [DSun]) (DTemp m t n))).
    rewrite RS. unfold fails. rewrite RRS.
    assert (S1 : s_sun st1 <> None) by discriminate.
    destruct (s_disagg st) as [d|] eqn:E.
    + assert (E1 : s_disagg st1 = Some d) by exact E.
      rewrite (finish_write "glob" r st1 d E1). set (w := bind r _).
      destruct (write_state "glob" w d st1 E1) as (d2 & E2 & I2 & N2 & S2 & K2).
      rewrite (run_write e q _ d2 (DTemp m t n) "temp" E2 ltac:(rewrite S2; exact S1) eq_refl).
      rewrite (run_write e q st1 d (DTemp m t n) "temp" E1 S1 eq_refl).
      assert (R : result e q (fst (write "glob" w d st1)) d2 (DTemp m t n) = result e q st1 d (DTemp m t n)).
      { apply (result_input e q _ st1 d2 d _ "temp"); [apply same_input_write, E1|exact I2|reflexivity|discriminate]. }
      rewrite R. destruct (result e q st1 d (DTemp m t n)) as [l|x]; cbn [write fst snd]; [|split; [reflexivity|discriminate]].
      split; [reflexivity|]. intros _. unfold hourly_column. cbn [with_disagg s_disagg].
      destruct (in_dec string_dec "temp" (map fst (f_cols d))) as [HI|HN].
      * rewrite !put_assoc by (rewrite ?N2; exact HI). reflexivity.
      * assert (Z : forall dd : dframe xr, ~ In "temp" (map fst (f_cols dd)) -> assoc "temp" (f_cols dd) = None).
        { intros dd'. induction (f_cols dd') as [|[k v] rr IHl]; intro Hn; [reflexivity|]. cbn [assoc].
          destruct (String.eqb_spec k "temp") as [->|]; [exfalso; apply Hn; left; reflexivity|]. apply IHl. intro Hk. apply Hn. right. exact Hk. }
        rewrite !Z; [reflexivity| |]; rewrite (proj1 (proj2 (put_column_ok _ _ _))); [exact HN|rewrite N2; exact HN].
    + assert (FN : forall r', exists x, finish "glob" r' st1 = (st1, Some x)).
      { intros [s|x]; cbn [finish]; [|eauto]. unfold put_series. cbn [st1 with_sun s_disagg]. rewrite E. eauto. }
      destruct (FN r) as (x & ->). cbn [fst]. split; reflexivity.
Qed.
Print Assumptions C98_sun_times.

(** the station of one day on the equator *)
Definition eq_day : dframe xr :=
  Build_dframe (daily_index 0 1) [("tmin", [Fin 280]); ("tmax", [Fin 290]); ("temp", [Fin 285]); ("wind", [Fin 3])].
Definition eq_station (sun : option sun_table) : station :=
  {| s_lon := Some (Fin 0); s_lat := Some (Fin 0); s_tz := Some (Fin 0); s_stats := O; s_daily := Some eq_day;
     s_disagg := Some (empty_hourly (hours_index 0 1)); s_sun := sun |}.
Definition eq_sun : sun_table := get_sun_times (daily_index 0 1) (Fin 0) (Fin 0) (Fin 0).
Definition eq_stats : sstats := new_stats (Some (Fin 0)) (Some (Fin 0)) (Some (Fin 0)).
Lemma eq_sun_days : exists rise noon, sun_days eq_sun 0 [rise] [noon].
Proof.
  destruct (C33_sun_times 0 0 0 0) as (rise & noon & set & dl & rr & rs & k1 & k2 & E & B & _ & _ & _ & _ & _ & _ & _ & H).
  cbv zeta in H. destruct H as (_ & _ & H). unfold eq_sun. change (daily_index 0 1) with [0%Z].
  exists rise, noon. rewrite E. split; [reflexivity|]. split; [reflexivity|]. split; [reflexivity|]. split; [reflexivity|].
  constructor; [|constructor]. cbn [snd daylength]. exists dl. split; [reflexivity|].
  assert (U : (tan (0 * (PI / 180)) * tan (decl_R (doy_of_day (date_of 0))) = 0)%R) by (rewrite Rmult_0_l, tan_0; ring).
  rewrite U in H. specialize (H ltac:(lra)). destruct (Rle_lt_dec 3 dl) as [L|L]; [exact L|exfalso].
  pose proof PI_RGT_0 as P. assert (C : (0 < cos (dl / 2 * (PI / 12)))%R); [|lra].
  apply cos_gt_0; [|].
  - apply Rlt_le_trans with 0%R; [lra|]. apply Rmult_le_pos; lra.
  - apply Rlt_le_trans with (3 / 2 * (PI / 12))%R; [apply Rmult_lt_compat_r; lra|lra].
Qed.
Lemma eq_temp_run e st : s_daily st = Some eq_day -> s_sun st = Some eq_sun -> s_disagg st = Some (empty_hourly (hours_index 0 1)) ->
  exists vals, run_data e eq_stats st (DTemp "sine_min_max" "fix" false)
    = (with_disagg st (Some (put_column "temp" vals (empty_hourly (hours_index 0 1)))), None) /\
    List.length vals = 24%nat /\ exists v, In (Fin v) vals.
Proof.
  intros ED ES EH. destruct eq_sun_days as (rise & noon & SD).
  assert (TF : temp_frame eq_day 0 [Fin 280] [Fin 290] [Fin 285]) by (repeat split).
  destruct (C34_between e eq_day 0 [Fin 280] [Fin 290] [Fin 285] "sine_min_max" "fix" None (fun _ => 0%R) None eq_sun [rise] [noon]
    ltac:(discriminate) TF (or_introl eq_refl) SD eq_refl (or_introl eq_refl)) as (out & EO & IX & V).
  exists (values out). split; [|split].
  - cbn [run_data]. unfold st_temperature, daily_frame_temp. rewrite ED, ES. cbn [bind].
    change (q_delta eq_stats) with (@None (list (Z * xr))). change (q_tcourse eq_stats) with (@None (course xr)).
    assert (EO' : disaggregate_temperature e eq_day "sine_min_max" "fix" false None None (@Some sun_table eq_sun) = Ok out) by exact EO.
    rewrite EO'. cbn [finish]. unfold put_series. rewrite EH. unfold index. rewrite IX.
    change (f_index (empty_hourly (hours_index 0 1))) with (hours_index 0 1). change (List.length [Fin 285]) with 1%nat.
    rewrite same_labels_refl. reflexivity.
  - unfold values. rewrite map_length, <- (map_length fst), IX. reflexivity.
  - destruct (V 0%nat 0%nat 280%R 280%R 290%R 290%R) as (v & Ev & _); try reflexivity; try (cbn [List.length]; lia).
    { unfold Rmax, Rmin. repeat destruct (Rle_dec _ _); lra. }
    exists v. unfold values.
    assert (I0 : In (Fin v) (values_on (0 + Z.of_nat 0) out)).
    { rewrite <- Ev. apply nth_In. destruct (Nat.lt_ge_cases 0 (List.length (values_on (0 + Z.of_nat 0) out))) as [|L]; [assumption|].
      rewrite nth_overflow in Ev by exact L. discriminate. }
    unfold values_on in I0. apply in_map_iff in I0 as (p & Ep & Hp). apply filter_In in Hp. rewrite <- Ep. apply in_map, Hp.
Qed.
(** with the sun times of that station calls for temperature work, without them only after radiation *)
Theorem C98_order_refuted : exists e q st o1 o2 c1 c2, s_disagg st <> None /\
  fills o1 = Some c1 /\ fills o2 = Some c2 /\ c1 <> c2 /\ ~ dependent c1 c2 /\
  hourly_column (session e q st [o1; o2]) c1 <> hourly_column (session e q st [o2; o1]) c1.
Proof.
  exists modern, eq_stats, (eq_station None), (DTemp "sine_min_max" "fix" false), (DRad "mean_course" None), "temp", "glob".
  split; [discriminate|]. split; [reflexivity|]. split; [reflexivity|]. split; [discriminate|].
  split; [intros [[_ H]|[_ H]]; discriminate|].
  assert (G : forall r st, hourly_column (fst (finish "glob" r st)) "temp" = hourly_column st "temp").
  { intros [s|x] st; [|reflexivity]. cbn [finish]. unfold put_series. destruct (s_disagg st) as [d|] eqn:E; [|reflexivity].
    unfold hourly_column. destruct (same_labels _ _); [|destruct (has_dup _)]; cbn [fst with_disagg s_disagg]; rewrite E;
      [apply put_other; discriminate|reflexivity|apply put_other; discriminate]. }
  set (st := eq_station None).
  assert (T1 : fst (run_data modern eq_stats st (DTemp "sine_min_max" "fix" false)) = st).
  { destruct (C71_default_sun_times modern eq_day "sine_min_max" "fix" false None None (or_introl eq_refl)) as (err & X).
    cbn [run_data]. unfold st_temperature. change (daily_frame_temp st _) with (@Ok (dframe xr) eq_day). cbn [bind].
    change (q_delta eq_stats) with (@None (list (Z * xr))). change (q_tcourse eq_stats) with (@None (course xr)).
    change (s_sun st) with (@None sun_table). rewrite X. reflexivity. }
  destruct (C98_sun_times modern eq_stats st eq_day (Fin 0) (Fin 0) (Fin 0) "sine_min_max" "fix" false "mean_course" None)
    as (_ & _ & F & C); [repeat split|reflexivity|left; reflexivity|].
  destruct (eq_temp_run modern (session modern eq_stats st [DSun]) eq_refl eq_refl eq_refl) as (vals & R & _ & v & HV).
  assert (HC : hourly_column (session modern eq_stats st [DSun; DTemp "sine_min_max" "fix" false]) "temp" = Some vals).
  { change (session modern eq_stats st [DSun; DTemp "sine_min_max" "fix" false])
      with (fst (run_data modern eq_stats (session modern eq_stats st [DSun]) (DTemp "sine_min_max" "fix" false))).
    rewrite R. reflexivity. }
  rewrite C by (unfold fails; rewrite R; reflexivity). rewrite HC.
  change (session modern eq_stats st [DTemp "sine_min_max" "fix" false; DRad "mean_course" None])
    with (fst (run_data modern eq_stats (fst (run_data modern eq_stats st (DTemp "sine_min_max" "fix" false))) (DRad "mean_course" None))).
  rewrite T1. cbn [run_data].
  assert (X : hourly_column (fst (st_radiation modern eq_stats st "mean_course" None)) "temp" = Some (map (fun _ => NaN) (hours_index 0 1))).
  { unfold st_radiation. change (s_sun st) with (@None sun_table).
    change (calc_sun_times st) with (with_sun st (Some eq_sun), @None exn). cbv beta iota. rewrite G. reflexivity. }
  rewrite X. intro H. apply (f_equal (fun o => match o with Some l => l | None => [] end)) in H. rewrite <- H in HV.
  apply in_map_iff in HV as (z & Hz & _). discriminate.
Qed.
Print Assumptions C98_order_refuted.

Example C98_order_met : let st := eq_station (Some eq_sun) in
  s_disagg st <> None /\ s_sun st <> None /\
  fails modern eq_stats st (DTemp "sine_min_max" "fix" false) = None /\
  fails modern eq_stats st (DWind "equal" (fun _ => NaN)) = None /\
  ~ dependent "temp" "wind".
Proof.
  cbv zeta. split; [discriminate|]. split; [discriminate|]. split; [destruct (eq_temp_run modern (eq_station (Some eq_sun)) eq_refl eq_refl eq_refl) as (vals & R & _); unfold fails; rewrite R; reflexivity|].
  split; [reflexivity|]. intros [[_ H]|[_ H]]; discriminate.
Qed.

Lemma one_day_series (vals : list xr) : List.length vals = 24%nat ->
  combine (hours_index 0 1) vals = map (fun t => (t, nth (Z.to_nat (hour_of t)) vals NaN)) (hours_index 0 1).
Proof.
  intro L. do 24 (destruct vals as [|? vals]; [discriminate L|]). destruct vals; [|discriminate L]. reflexivity.
Qed.
(** the calls for temperature and humidity of a session, with a call for wind in between *)
Example C98_humidity_met : let st := eq_station (Some eq_sun) in
  let before := [DTemp "sine_min_max" "fix" false; DWind "equal" (fun _ => NaN)] in
  fails modern eq_stats (session modern eq_stats st before) (DHum "minimal" false) = None /\
  In "hum" (match s_disagg st with Some d => map fst (f_cols d) | None => [] end).
Proof.
  cbv zeta. split; [|cbn; auto 6].
  set (st := eq_station (Some eq_sun)).
  destruct (C98_humidity modern eq_stats st [DTemp "sine_min_max" "fix" false; DWind "equal" (fun _ => NaN)] (DHum "minimal" false) [])
    as (F & _); [discriminate|discriminate| |reflexivity|intros o []|].
  { intros o [<-|[<-|[<-|[]]]]; discriminate. }
  rewrite F. cbn [filter is_temp].
  destruct (eq_temp_run modern st eq_refl eq_refl eq_refl) as (vals & R & L & _).
  change (session modern eq_stats st [DTemp "sine_min_max" "fix" false]) with (fst (run_data modern eq_stats st (DTemp "sine_min_max" "fix" false))).
  rewrite R. cbn [fst].
  assert (DF : day_frame eq_day 0 1) by (split; [discriminate|reflexivity]).
  destruct (C48_minimal modern eq_day 0 1 [Fin 280] (fun t => nth (Z.to_nat (hour_of t)) vals NaN) None None None None DF) as (out & EO & IX & _).
  { split; reflexivity. }
  rewrite <- (one_day_series vals L) in EO.
  unfold fails. cbn [run_data]. unfold st_humidity. cbn [with_disagg s_disagg].
  change (daily_frame _) with (@Ok (dframe xr) eq_day). cbn [bind].
  change (fcol "temp" (put_column "temp" vals (empty_hourly (hours_index 0 1)))) with (Ok (combine (hours_index 0 1) vals)). cbn [bind].
  match goal with |- context [disaggregate_humidity ?e ?d ?m ?t ?a ?b ?c ?g ?k] =>
    replace (disaggregate_humidity e d m t a b c g k) with (Ok out) by (symmetry; exact EO) end.
  cbn [finish]. unfold put_series. cbn [with_disagg s_disagg]. unfold index. rewrite IX.
  change (f_index (put_column "temp" vals (empty_hourly (hours_index 0 1)))) with (hours_index 0 1).
  rewrite same_labels_refl. reflexivity.
Qed.
