(** Property C139: radiation from the temperature range of a record with missing days. *)
From Coq Require Import String ZArith List Bool Lia Reals Lra Sorted.
From Verif Require Import Py Num Cal Series Trans UtilModel UtilModel2 Frame TempModel RadModel RadAnyModel SpecBase SpecUtil TimeProofs IndexProofs DaysProofs
  InterpProofs CourseProofs TempProofs TempCourse MasterProofs RadBC SpecSineRound SpecRadAny RadAny PropsRadAny PropsRad3 SpecGapDays.
Import ListNotations.
Open Scope Z_scope.
Open Scope list_scope.

Lemma lookup_on {T} (days : list Z) (f : Z -> T) D :
  lookup (D * us_day) (on_days days f) = if recorded days D then Some (f D) else None.
Proof.
  unfold on_days, recorded. change 86400000000 with us_day. induction days as [|E days IH]; [reflexivity|]. cbn [map lookup existsb].
  destruct (Z.eqb_spec D E) as [->|NE]; [rewrite Z.eqb_refl; reflexivity|].
  rewrite (proj2 (Z.eqb_neq (E * us_day) (D * us_day))) by (unfold us_day; lia). exact IH.
Qed.
Lemma recorded_In days D : recorded days D = true <-> In D days.
Proof. unfold recorded. rewrite existsb_exists. split; [intros (x & I & E); apply Z.eqb_eq in E; subst; exact I|intro I; exists D; split; [exact I|apply Z.eqb_refl]]. Qed.
Lemma on_days_fst {T} days (f : Z -> T) : map fst (on_days days f) = map midnight days.
Proof. unfold on_days. rewrite map_map. reflexivity. Qed.
Lemma sorted_last (days : list Z) d : StronglySorted Z.lt days -> forall D, In D days -> D <= last days d.
Proof.
  induction 1 as [|E days SS IH F]; intros D I; [destruct I|]. destruct days as [|E2 days]; [destruct I as [->|[]]; cbn; lia|].
  change (last (E :: E2 :: days) d) with (last (E2 :: days) d). destruct I as [->|I]; [|apply IH, I].
  rewrite Forall_forall in F. specialize (F E2 (or_introl eq_refl)). specialize (IH E2 (or_introl eq_refl)). lia.
Qed.
Lemma last_midnight (days : list Z) d : days <> [] -> last (map midnight days) d = midnight (last days 0).
Proof. intro NE. induction days as [|E [|E2 days] IH]; [contradiction|reflexivity|]. apply IH. discriminate. Qed.
Lemma midnight_sorted days : StronglySorted Z.lt days -> StronglySorted Z.lt (map midnight days).
Proof.
  induction 1 as [|E days SS IH F]; constructor; [exact IH|]. rewrite Forall_forall in *. intros x I. apply in_map_iff in I as (y & <- & I).
  specialize (F y I). unfold midnight, us_day. lia.
Qed.
Lemma filter_map_days {T} (g : Z -> T) m (days : list Z) :
  map snd (filter (fun p => month_of (fst p) =? m) (map (fun D => (midnight D, g D)) days)) = map g (filter (fun D => month_of_day D =? m) days).
Proof.
  induction days as [|D days IH]; [reflexivity|]. cbn [map filter fst].
  assert (E : month_of (midnight D) = month_of_day D) by (unfold month_of, midnight; rewrite day_start_date; reflexivity). rewrite E.
  destruct (month_of_day D =? m); cbn [map snd]; rewrite IH; reflexivity.
Qed.

Lemma params_in_values {T} {N : Num T} (ps : model_params T) t a b : params_in ps (month_of t) a b -> values_at ps t = Ok (a, b).
Proof.
  destruct ps as [a' b'|la lb]; cbn [params_in values_at]; [intros [-> ->]; reflexivity|]. change (@entry_of T) with (@lookup T). intros [HA HB].
  unfold month_value. rewrite HA. cbn [bind]. rewrite HB. reflexivity.
Qed.

(** for any kind of number and any implementation of the mean and of the two functions *)
Theorem C139_any_days {T} {N : Num T} (expf : T -> T) (powf : T -> T -> T) (mean : list T -> T) ps (fa fb : Z -> T) days lo hi pots (pot : Z -> T) :
  record_of days -> (forall D, In D days -> entry_of (D * 86400000000) pots = Some (pot D)) ->
  (forall D, In D days -> params_in ps (month_of_day D) (fa (month_of_day D)) (fb (month_of_day D))) ->
  bristow_any expf powf mean ps (on_days days lo) (on_days days hi) pots
  = Ok (on_days days (fun D => let m := month_of_day D in
      let avg := mean (map (range_on days lo hi) (filter (fun E => month_of_day E =? m) days)) in
      (fa m * (n1 - expf (- (lit 36 3 * expf (lit (-154) 3 * avg)) * powf (range_on days lo hi D) (fb m))) * pot D)%num)).
Proof.
  intros [NE SS] HP HF. unfold bristow_any, index. rewrite !on_days_fst, zlist_eqb_refl. cbn [negb].
  destruct days as [|d0 rest] eqn:ED; [contradiction|]. cbn [map]. change (midnight d0 :: map midnight rest) with (map midnight (d0 :: rest)).
  rewrite <- ED in *. rewrite last_midnight by exact NE.
  rewrite (has_dup_sorted _ (midnight_sorted _ SS)).
  set (L := last days 0).
  assert (B : forall D, In D days -> d0 <= D <= L).
  { intros D I. split; [|apply sorted_last; assumption]. rewrite ED in SS, I. inversion SS as [|x l S2 F]; subst. destruct I as [->|I]; [lia|]. rewrite Forall_forall in F. specialize (F D I). lia. }
  assert (B0 : d0 <= L) by (apply B; rewrite ED; left; reflexivity).
  set (n := Z.to_nat (L - d0)).
  assert (EL : L = d0 + Z.of_nat n) by (unfold n; lia).
  assert (EFULL : date_range (midnight d0) (midnight L) us_day = daily_index d0 (S n)) by (rewrite EL; apply date_range_daily).
  rewrite EFULL.
  set (g := fun i : nat => if recorded days (d0 + Z.of_nat i) then lo (d0 + Z.of_nat i) else n_nan).
  assert (EF : map (fun t => (t, match lookup t (on_days days lo) with Some v => v | None => n_nan end)) (daily_index d0 (S n)) = daily d0 (map g (seq 0 (S n)))).
  { rewrite (daily_seq g). unfold daily_index, grid. rewrite map_map. apply map_ext. intro i.
    replace (d0 * us_day + Z.of_nat i * us_day) with ((d0 + Z.of_nat i) * us_day) by ring. rewrite lookup_on. unfold g. destruct (recorded days _); reflexivity. }
  rewrite EF. set (l := map g (seq 0 (S n))).
  assert (LL : length l = S n) by (unfold l; rewrite map_length, seq_length; reflexivity).
  assert (EN : combine (daily_index d0 (S n)) (map snd (skipn 1 (daily d0 l)) ++ map snd (skipn (length (daily_index d0 (S n)) - 1) (daily d0 l)))
               = daily d0 (map (next_or_own n_nan l) (seq 0 (S n)))).
  { unfold daily_index at 2. rewrite grid_length. unfold daily at 3. rewrite map_length, seq_length. f_equal.
    rewrite <- LL. rewrite <- (next_list_any l) by (intro E; rewrite E in LL; discriminate LL). rewrite <- !skipn_map, !daily_snd. reflexivity. }
  rewrite EN.
  assert (NT : forall F : nat -> T, forall i, (i < S n)%nat -> nth i (map F (seq 0 (S n))) n_nan = F i).
  { intros F i Hi. rewrite (nth_indep _ n_nan (F O)) by (rewrite map_length, seq_length; exact Hi). rewrite (map_nth F), seq_nth by exact Hi. reflexivity. }
  assert (POS : forall D, In D days -> exists i, (i < S n)%nat /\ D = d0 + Z.of_nat i).
  { intros D I. specialize (B D I). exists (Z.to_nat (D - d0)). lia. }
  assert (ER : mapM (fun t => let* n0 := value_at (daily d0 (map (next_or_own n_nan l) (seq 0 (S n)))) t in
                              let* lo0 := value_at (daily d0 l) t in
                              Ok (t, (match lookup t (on_days days hi) with Some v => v | None => n_nan end - (lo0 + n0) / n_ofZ 2)%num)) (map midnight days)
              = Ok (map (fun D => (midnight D, range_on days lo hi D)) days)).
  { rewrite TempProofs.mapM_map. apply mapM_Ok. intros D I. destruct (POS D I) as (i & Hi & ->). unfold midnight.
    rewrite value_at_daily by (rewrite map_length, seq_length; exact Hi). cbn [bind]. rewrite value_at_daily by (rewrite LL; exact Hi). cbn [bind].
    rewrite lookup_on, (proj2 (recorded_In days _) I), NT by exact Hi. unfold range_on. do 5 f_equal.
    - unfold l. rewrite NT by exact Hi. unfold g. rewrite (proj2 (recorded_In days _) I). reflexivity.
    - unfold next_or_own, following. rewrite LL. fold L. destruct (Nat.eqb_spec (S i) (S n)) as [E|E].
      + rewrite (proj2 (Z.eqb_eq _ L)) by lia. unfold l. rewrite NT by exact Hi. unfold g. rewrite (proj2 (recorded_In days _) I). reflexivity.
      + rewrite (proj2 (Z.eqb_neq _ L)) by lia. unfold l. rewrite NT by lia. unfold g. replace (d0 + Z.of_nat (S i)) with (d0 + Z.of_nat i + 1) by lia. reflexivity. }
  rewrite ER. cbn [bind].
  assert (EQ : mapM (fun t => value_at pots t) (map midnight days) = Ok (map pot days)).
  { rewrite TempProofs.mapM_map. apply mapM_Ok. intros D I. unfold value_at. specialize (HP D I). change (@entry_of T) with (@lookup T) in HP.
    change (D * 86400000000) with (midnight D) in HP. rewrite HP. reflexivity. }
  rewrite EQ. cbn [bind]. rewrite TempCourse.combine_maps, TempProofs.mapM_map. unfold on_days. change 86400000000 with us_day.
  apply mapM_Ok. intros D I.
  assert (EM : month_of (midnight D) = month_of_day D) by (unfold month_of, midnight; rewrite day_start_date; reflexivity).
  rewrite (params_in_values ps (midnight D) (fa (month_of_day D)) (fb (month_of_day D))) by (rewrite EM; apply HF, I). cbn [bind fst snd].
  rewrite EM, filter_map_days. reflexivity.
Qed.
Print Assumptions C139_any_days.

(** ** exact numbers *)
Section Exact.
  Context (days : list Z) (lo hi : Z -> R).
  Local Definition xrange := range_on days (fun E => Fin (lo E)) (fun E => Fin (hi E)).
  Lemma swing_range D : followed days D = true -> xrange D = Fin (swing days lo hi D).
  Proof.
    unfold followed, xrange, range_on, following, swing. intro H.
    destruct (D =? last days 0); [|rewrite orb_false_l in H; rewrite H];
      cbn [n_add n_ofZ Num_xr xadd]; change (@n_div xr Num_xr) with xdiv; change (xdiv ?a (Fin (IZR 2))) with (n_div a (Fin (IZR 2)));
      (rewrite xdiv_Fin by lra); reflexivity.
  Qed.
  Lemma no_range D : followed days D = false -> xrange D = NaN.
  Proof. unfold followed, xrange, range_on, following. intro H. apply orb_false_iff in H as [-> ->]. reflexivity. Qed.
  Lemma month_numeric l : numeric (map xrange l).
  Proof.
    apply Forall_forall. intros x I. apply in_map_iff in I as (D & <- & _).
    destruct (followed days D) eqn:E; [rewrite swing_range by exact E|rewrite no_range by exact E]; exact I.
  Qed.
  Lemma month_fins m l : fins (map xrange (filter (fun E => month_of_day E =? m) l))
    = map (swing days lo hi) (filter (fun D => (month_of_day D =? m) && followed days D) l).
  Proof.
    induction l as [|D l IH]; [reflexivity|]. cbn [filter]. destruct (month_of_day D =? m); cbn [andb]; [|exact IH]. cbn [map]. unfold fins in *. cbn [flat_map].
    rewrite IH. destruct (followed days D) eqn:E; [rewrite swing_range by exact E|rewrite no_range by exact E]; reflexivity.
  Qed.
End Exact.

Lemma formula_xr a c avg dT pot : (c <> 0)%R -> (0 < dT)%R ->
  (Fin a * (n1 - xexp (- (lit 36 3 * xexp (lit (-154) 3 * Fin avg)) * xpow (Fin dT) (Fin c))) * Fin pot)%num = Fin (bristow_formula a c avg dT pot).
Proof.
  intros HC HD. rewrite !lit_xr by lia.
  assert (EP : xpow (Fin dT) (Fin c) = Fin (Rpower dT c)).
  { cbn. unfold Reqb, Rltb. destruct (Req_EM_T c 0); [contradiction|]. destruct (Rlt_dec 0 dT); [reflexivity|contradiction]. }
  rewrite EP. unfold bristow_formula. cbn. f_equal.
  replace (-154 / 1000)%R with (- (154 / 1000))%R by lra. reflexivity.
Qed.

Theorem C139_exact_days ps days (lo hi pot fa fc : Z -> R) pots :
  record_of days -> (forall D, In D days -> entry_of (D * 86400000000) pots = Some (Fin (pot D))) ->
  (forall D, In D days -> let m := month_of_day D in params_in (any_of ps) m (Fin (fa m)) (Fin (fc m)) /\ fc m <> 0%R) ->
  exists v, bristow_campbell ps (on_days days (fun D => Fin (lo D))) (on_days days (fun D => Fin (hi D))) pots = Ok (on_days days v) /\
    (forall D, In D days -> D <> last days 0 -> ~ In (D + 1) days -> v D = NaN) /\
    (forall D, In D days -> D = last days 0 \/ In (D + 1) days -> (0 < swing days lo hi D)%R ->
       let m := month_of_day D in
       v D = Fin (bristow_formula (fa m) (fc m) (Rmean (map (swing days lo hi) (usable days m))) (swing days lo hi D) (pot D))).
Proof.
  intros HR HP HF. rewrite C124_same_bristow.
  rewrite (C139_any_days xexp xpow nanmean (any_of ps) (fun m => Fin (fa m)) (fun m => Fin (fc m)) days _ _ pots (fun D => Fin (pot D)) HR HP
             (fun D I => proj1 (HF D I))).
  eexists. split; [reflexivity|]. cbv beta zeta. split.
  - intros D I NL NI. fold (xrange days lo hi). rewrite no_range.
    + assert (EP : xpow NaN (Fin (fc (month_of_day D))) = NaN).
      { cbn. unfold Reqb. destruct (Req_EM_T _ 0) as [E|]; [destruct (HF D I) as [_ N]; contradiction|reflexivity]. }
      rewrite EP, (proj1 (nan_mul _)). change (xexp NaN) with NaN. reflexivity.
    + unfold followed. rewrite (proj2 (Z.eqb_neq _ _) NL), orb_false_l. apply not_true_is_false. intro H. apply NI, recorded_In, H.
  - intros D I FO POS. fold (xrange days lo hi).
    assert (FL : followed days D = true).
    { unfold followed. destruct FO as [->|FO]; [rewrite Z.eqb_refl; reflexivity|]. rewrite (proj2 (recorded_In _ _) FO). apply orb_true_r. }
    assert (EF : fins (map (xrange days lo hi) (filter (fun E => month_of_day E =? month_of_day D) days)) = map (swing days lo hi) (usable days (month_of_day D))) by apply month_fins.
    rewrite nanmean_numeric; [|apply month_numeric|].
    2:{ rewrite EF. assert (U : In D (usable days (month_of_day D))) by (apply filter_In; split; [exact I|]; rewrite Z.eqb_refl; exact FL).
        destruct (usable days (month_of_day D)); [destruct U|discriminate]. }
    rewrite EF, swing_range by exact FL. apply formula_xr; [apply (HF D I)|exact POS].
Qed.
Print Assumptions C139_exact_days.

(** 1, 2 and 4 to 6 January 2001: the 2nd stands before a gap *)
Example C139_met :
  exists days lo hi pot, record_of days /\ length days = 5%nat /\
    (In 11324 days /\ 11324 <> last days 0 /\ ~ In 11325 days) /\ (In 11323 days /\ In (11323 + 1) days) /\ (0 < swing days lo hi 11323)%R /\
    params_in (any_of (PScalar (Fin (3/4)) (Fin (12/5)))) (month_of_day 11323) (Fin (3/4)) (Fin (12/5)) /\
    entry_of (11323 * 86400000000) (on_days days (fun D => Fin (pot D))) = Some (Fin 100%R).
Proof.
  exists [11323; 11324; 11326; 11327; 11328], (fun D => if D =? 11324 then 2%R else 0%R), (fun _ => 9%R), (fun _ => 100%R).
  split; [split; [discriminate|repeat constructor]|]. split; [reflexivity|].
  split; [split; [right; left; reflexivity|]; split; [discriminate|]; cbn [In]; lia|].
  split; [split; [left; reflexivity|right; left; reflexivity]|].
  split; [|split; [split; reflexivity|reflexivity]].
  unfold swing. cbn [last]. change (11323 =? 11324) with false. change (11323 + 1 =? 11324) with true. change (11323 =? 11328) with false. cbv iota. lra.
Qed.
