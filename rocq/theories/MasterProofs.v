(** precip_master_station *)
From Coq Require Import ZArith List Bool Lia Reals Lra Sorted.
From Verif Require Import Py Num Cal Series UtilModel SpecBase TimeProofs CascadeModel PrecipModel
  SpecCascade CascadeProofs CascadeExact CascadeFive EqualProofs.
Import ListNotations.
Open Scope Z_scope.

Section Generic.
  Context {T : Type} {N : Num T}.

  (** rows of one calendar day *)
  Definition rows_on {A} (d : Z) (s : list (Z * A)) : list (Z * A) :=
    filter (fun p => fst p / us_day =? d) s.

  Definition set_day (d : Z) (f : Z -> T) (out : series T) : series T :=
    map (fun p => (fst p, if date_of (fst p) =? d then f (fst p) else snd p)) out.
  Lemma set_day_index d f out : map fst (set_day d f out) = map fst out.
  Proof. unfold set_day. rewrite map_map. reflexivity. Qed.
  Lemma set_day_on d f out : values_on d (set_day d f out) = map f (map fst (rows_on d out)).
  Proof.
    unfold values_on, rows_on, set_day. induction out as [|[t v] out IH]; [reflexivity|].
    cbn [map filter fst snd]. unfold date_of at 1. destruct (t / us_day =? d); cbn [map fst snd]; [f_equal|]; exact IH.
  Qed.
  Lemma set_day_off d d' f out : d' <> d -> values_on d' (set_day d f out) = values_on d' out.
  Proof.
    intro H. unfold values_on, set_day. induction out as [|[t v] out IH]; [reflexivity|].
    cbn [map filter fst snd]. unfold date_of. destruct (Z.eqb_spec (t / us_day) d') as [E|E]; cbn [map snd].
    - destruct (Z.eqb_spec (t / us_day) d); [congruence|]. f_equal. exact IH.
    - exact IH.
  Qed.

  Lemma lookup_map_snd {A B} (f : A -> B) u (s : list (Z * A)) :
    lookup u (map (fun p => (fst p, f (snd p))) s) = option_map f (lookup u s).
  Proof.
    induction s as [|[t v] s IH]; [reflexivity|]. cbn [map fst snd lookup].
    destruct (t =? u); [reflexivity|exact IH].
  Qed.
  Lemma lookup_rows_on {A} d u (s : list (Z * A)) : u / us_day = d -> lookup u (rows_on d s) = lookup u s.
  Proof.
    intro H. unfold rows_on. induction s as [|[t v] s IH]; [reflexivity|]. cbn [filter fst lookup].
    destruct (Z.eqb_spec t u) as [->|E].
    - rewrite H, Z.eqb_refl. cbn [lookup]. rewrite Z.eqb_refl. reflexivity.
    - destruct (t / us_day =? d); [|exact IH]. cbn [lookup].
      destruct (Z.eqb_spec t u); [contradiction|exact IH].
  Qed.

  (** the master's pattern of a day, and what it makes of amount [a] *)
  Definition master_total (master : series T) (d : Z) : T := nansum (values_on d master).
  Definition usable (sm : T) : bool :=
    negb (sm =? n0)%num && negb (sm =? (if n_isnan sm then n1 else n0))%num.
  Definition master_value (master : series T) (uniform : bool) (d : Z) (a : T) (u : Z) : T :=
    if usable (master_total master d)
    then match lookup u master with Some v => (v / master_total master d * a)%num | None => n_nan end
    else if uniform then (n1 / n_ofZ 24 * a)%num else n0.

  Lemma has_dup_sorted l : StronglySorted Z.lt l -> has_dup l = false.
  Proof.
    induction 1 as [|a l SS IH F]; [reflexivity|]. cbn [has_dup]. rewrite IH, orb_false_r.
    apply not_true_iff_false. unfold mem. rewrite existsb_exists. intros (x & Hx & E).
    apply Z.eqb_eq in E. rewrite Forall_forall in F. specialize (F x Hx). lia.
  Qed.
  Lemma filter_sorted f (s : series T) : StronglySorted Z.lt (map fst s) ->
    StronglySorted Z.lt (map fst (filter f s)).
  Proof.
    induction s as [|[t v] s IH]; intro H; [constructor|]. cbn [map fst] in H. inversion H; subst.
    cbn [filter]. destruct (f (t, v)); [|auto]. cbn [map fst]. constructor; [auto|].
    rewrite Forall_forall in *. intros x Hx. apply H3. apply in_map_iff in Hx.
    destruct Hx as ([u w] & <- & Hx). apply filter_In in Hx. destruct Hx as [Hx _].
    apply (in_map fst) in Hx. exact Hx.
  Qed.

  Lemma sorted_range (s : series T) d t0 v0 : StronglySorted Z.lt (map fst ((t0, v0) :: s)) ->
    rows_on d ((t0, v0) :: s) <> [] ->
    date_of t0 <= d <= date_of (fst (last ((t0, v0) :: s) (t0, n_nan))).
  Proof.
    intros SS NE.
    assert (E : exists p, In p ((t0, v0) :: s) /\ fst p / us_day = d).
    { destruct (rows_on d ((t0, v0) :: s)) as [|p r] eqn:E; [congruence|].
      exists p. assert (In p (rows_on d ((t0, v0) :: s))) as Hp by (rewrite E; left; reflexivity).
      apply filter_In in Hp. destruct Hp as [A B]. apply Z.eqb_eq in B. auto. }
    destruct E as (p & Hp & Hd). unfold date_of. rewrite <- Hd.
    assert (A : t0 <= fst p).
    { destruct Hp as [<-|Hp]; [cbn; lia|]. inversion SS; subst. rewrite Forall_forall in H2.
      specialize (H2 (fst p) (in_map fst _ _ Hp)). lia. }
    assert (B : fst p <= fst (last ((t0, v0) :: s) (t0, n_nan))).
    { revert Hp SS. generalize ((t0, v0) :: s). generalize (t0, n_nan : T). intros dflt l.
      induction l as [|q l IH]; intros Hp SS; [destruct Hp|].
      destruct l as [|q' l].
      - destruct Hp as [<-|[]]. cbn. lia.
      - change (last (q :: q' :: l) dflt) with (last (q' :: l) dflt). cbn [map] in SS. inversion SS as [|? ? SS' FF]; subst.
        destruct Hp as [<-|Hp]; [|apply IH; assumption].
        assert (fst q < fst q') by (rewrite Forall_forall in FF; apply FF; left; reflexivity).
        assert (G : fst q' <= fst (last (q' :: l) dflt)).
        { clear - SS'. revert q' SS'. induction l as [|x l IH]; intros q' SS; [cbn; lia|].
          change (last (q' :: x :: l) dflt) with (last (x :: l) dflt). cbn [map] in SS. inversion SS; subst.
          rewrite Forall_forall in H2. specialize (H2 (fst x) (or_introl eq_refl)).
          specialize (IH x H1). lia. }
        lia. }
    split; apply Z.div_le_mono; try (unfold us_day; lia); assumption.
  Qed.

  Lemma master_day_ok master uniform out t a :
    StronglySorted Z.lt (map fst master) -> rows_on (date_of t) master <> [] ->
    master_day master uniform out t a
    = Ok (set_day (date_of t) (master_value master uniform (date_of t) a) out).
  Proof.
    intros SS NE. unfold master_day. set (d := date_of t) in *.
    assert (OFF : match master with
               | [] => false
               | (t0, _) :: _ => (d <? date_of t0) || (date_of (fst (last master (t0, n_nan))) <? d)
               end = false).
    { destruct master as [|[t0 v0] m]; [reflexivity|].
      pose proof (sorted_range m d t0 v0 SS NE) as [A B].
      apply orb_false_iff. split; apply Z.ltb_ge; assumption. }
    rewrite OFF. cbv zeta.
    change (filter (fun p => date_of (fst p) =? d) master) with (rows_on d master).
    change (nansum (values (rows_on d master))) with (master_total master d).
    fold (usable (master_total master d)).
    destruct (usable (master_total master d)) eqn:U.
    - assert (HD : has_dup (index (map (fun p => (fst p, (snd p / master_total master d * a)%num))
                                  (rows_on d master))) = false).
      { unfold index. rewrite map_map. cbn [fst]. apply has_dup_sorted. apply filter_sorted. exact SS. }
      rewrite HD. f_equal. unfold set_day. apply map_ext. intros [u w]. cbn [fst snd]. f_equal.
      destruct (Z.eqb_spec (date_of u) d) as [E|]; [|reflexivity].
      unfold master_value. rewrite U.
      rewrite (lookup_map_snd (fun v => v / master_total master d * a)%num), lookup_rows_on by exact E.
      destruct (lookup u master); reflexivity.
    - unfold master_value. destruct uniform; f_equal; unfold set_day; apply map_ext; intros [u w]; cbn [fst snd];
        rewrite U; reflexivity.
  Qed.

  Lemma master_days_ok master uniform (days : series T) : 
    StronglySorted Z.lt (map fst master) ->
    (forall t, In t (map fst days) -> rows_on (date_of t) master <> []) ->
    NoDup (map date_of (map fst days)) ->
    forall out, exists out', master_days master uniform days out = Ok out' /\
      map fst out' = map fst out /\
      (forall t a, In (t, a) days ->
         values_on (date_of t) out'
         = map (master_value master uniform (date_of t) a) (map fst (rows_on (date_of t) out))) /\
      (forall d, ~ In d (map date_of (map fst days)) -> values_on d out' = values_on d out).
  Proof.
    intro SS. induction days as [|[t a] days IH]; intros HR ND out.
    - exists out. repeat split; [intros ? ? []].
    - cbn [map fst] in ND, HR. inversion ND as [|? ? NI ND']; subst.
      cbn [master_days]. rewrite master_day_ok by (try exact SS; apply HR; left; reflexivity). cbn [bind].
      destruct (IH (fun u Hu => HR u (or_intror Hu)) ND'
                  (set_day (date_of t) (master_value master uniform (date_of t) a) out))
        as (out' & E & I & D & O).
      exists out'. split; [exact E|]. split; [rewrite I; apply set_day_index|]. split.
      + intros u b [H|H].
        * injection H as <- <-. rewrite O by exact NI. apply set_day_on.
        * rewrite (D u b H). f_equal.
          assert (G : forall s1 s2 : series T, map fst s1 = map fst s2 ->
                      forall d, map fst (rows_on d s1) = map fst (rows_on d s2)).
          { clear. induction s1 as [|[x y] s1 IH]; intros [|[x' y'] s2] H d; try discriminate; [reflexivity|].
            cbn [map fst] in H. injection H as <- H. unfold rows_on. cbn [filter fst].
            destruct (x / us_day =? d); cbn [map fst]; [f_equal|]; apply IH; exact H. }
          apply G. apply set_day_index.
      + intros d Hd. rewrite O by (intro; apply Hd; right; assumption).
        apply set_day_off. intro; subst; apply Hd; left; reflexivity.
  Qed.

  Lemma hours_rows_on d0 n i (v : T) : (i < n)%nat ->
    map fst (rows_on (d0 + Z.of_nat i) (map (fun t => (t, v)) (hours_index d0 n)))
    = grid ((d0 + Z.of_nat i) * us_day) us_hour 24.
  Proof.
    intro Hi.
    assert (E : map (fun t => (t, v)) (hours_index d0 n) = combine (hours_index d0 n) (repeat v (24 * n))).
    { unfold hours_index. generalize (d0 * us_day). generalize (24 * n)%nat. intro k.
      induction k as [|k IH]; intro t; [reflexivity|]. rewrite grid_S. cbn. f_equal. apply IH. }
    assert (G : forall (s : series T) d, map fst (rows_on d s) = values_on d (map (fun p => (fst p, fst p)) s)).
    { intros s d. unfold rows_on, values_on. induction s as [|[x y] s IH]; [reflexivity|].
      cbn [map filter fst]. destruct (x / us_day =? d); cbn [map fst snd]; [f_equal|]; exact IH. }
    rewrite G, map_map. cbn [fst].
    replace (map (fun x => (x, x)) (hours_index d0 n)) with (combine (hours_index d0 n) (hours_index d0 n)).
    2:{ generalize (hours_index d0 n). induction l; cbn; congruence. }
    rewrite values_on_hours by (try assumption; apply grid_length).
    unfold hours_index. rewrite grid_skip_first by lia. f_equal. unfold us_day, us_hour. lia.
  Qed.

  Lemma master_station e d0 (amounts : list T) master uniform :
    amounts <> [] -> has_iteritems e = true ->
    StronglySorted Z.lt (map fst master) ->
    (forall i, (i < length amounts)%nat -> rows_on (d0 + Z.of_nat i) master <> []) ->
    exists out, precip_master_station e (daily d0 amounts) master uniform = Ok out /\
      map fst out = hours_index d0 (length amounts) /\
      forall i a, nth_error amounts i = Some a ->
        values_on (d0 + Z.of_nat i) out
        = map (master_value master uniform (d0 + Z.of_nat i) a)
              (grid ((d0 + Z.of_nat i) * us_day) us_hour 24).
  Proof.
    intros NE HI SS CV. unfold precip_master_station, index. rewrite daily_fst.
    assert (H : hourly_index e (daily_index d0 (length amounts)) = Ok (hours_index d0 (length amounts))).
    { destruct amounts as [|x l]; [congruence|]. unfold hourly_index. cbn [length]. apply hourly_index_daily. }
    rewrite H. cbn [bind]. rewrite HI.
    assert (DT : map date_of (map fst (daily d0 amounts)) = map (fun i => d0 + Z.of_nat i) (seq 0 (length amounts))).
    { rewrite daily_fst. unfold daily_index, grid. rewrite map_map. apply map_ext. intro i.
      unfold date_of. replace (d0 * us_day + Z.of_nat i * us_day) with ((d0 + Z.of_nat i) * us_day) by lia.
      apply Z.div_mul. unfold us_day. lia. }
    destruct (master_days_ok master uniform (daily d0 amounts) SS) with
      (out := map (fun t => (t, n_nan : T)) (hours_index d0 (length amounts)))
      as (out & E & I & D & _).
    - intros t Ht. apply (in_map date_of) in Ht. rewrite DT in Ht. apply in_map_iff in Ht.
      destruct Ht as (i & <- & Hi). apply in_seq in Hi. apply CV. lia.
    - rewrite DT. apply FinFun.Injective_map_NoDup; [|apply seq_NoDup]. intros x y. lia.
    - exists out. split; [exact E|]. split; [rewrite I, map_map; cbn [fst]; apply map_id|].
      intros i a Hi. assert (Hi' : (i < length amounts)%nat) by (apply nth_error_Some; congruence).
      assert (Hin : In ((d0 + Z.of_nat i) * us_day, a) (daily d0 amounts)).
      { apply nth_error_In with (n := i). rewrite daily_nth_error, Hi. reflexivity. }
      specialize (D _ _ Hin). unfold date_of in D. rewrite Z.div_mul in D by (unfold us_day; lia).
      rewrite D, hours_rows_on by exact Hi'. reflexivity.
  Qed.

  Lemma lookup_combine_grid t0 st n (vs : list T) j : 0 < st -> length vs = n -> (j < n)%nat ->
    lookup (t0 + Z.of_nat j * st) (combine (grid t0 st n) vs) = nth_error vs j.
  Proof.
    intros Hst. revert t0 vs j. induction n as [|n IH]; intros t0 [|v vs] j L Hj; try (cbn in *; lia).
    rewrite grid_S. cbn [combine lookup]. destruct j as [|j].
    - rewrite Z.add_0_r, Z.eqb_refl. reflexivity.
    - destruct (Z.eqb_spec t0 (t0 + Z.of_nat (S j) * st)); [exfalso; nia|].
      cbn [nth_error]. rewrite <- (IH (t0 + st) vs j) by (cbn in L; lia). f_equal. lia.
  Qed.
End Generic.

(** complete master day, exact arithmetic *)
Lemma master_complete_day master uniform d (ms : list R) r :
  rows_on d master = combine (grid (d * us_day) us_hour 24) (map Fin ms) -> length ms = 24%nat ->
  map (master_value master uniform d (Fin r)) (grid (d * us_day) us_hour 24)
  = if Reqb (Rsum ms) 0 then repeat (Fin (if uniform then r / 24 else 0)) 24
    else map (fun m => Fin (m / Rsum ms * r)) ms.
Proof.
  intros E L.
  assert (MT : master_total master d = Fin (Rsum ms)).
  { unfold master_total, values_on. fold (rows_on d master). rewrite E, map_snd_combine
      by (rewrite map_length, L; reflexivity). apply nansum_Fin. }
  assert (U : usable (master_total master d) = negb (Reqb (Rsum ms) 0)).
  { rewrite MT. unfold usable. cbn [n_isnan Num_xr xisnan]. rewrite n0_xr, xeqb_Fin.
    destruct (Reqb (Rsum ms) 0); reflexivity. }
  assert (V : forall j, (j < 24)%nat -> master_value master uniform d (Fin r) (d * us_day + Z.of_nat j * us_hour)
     = if Reqb (Rsum ms) 0 then Fin (if uniform then r / 24 else 0) else Fin (nth j ms 0 / Rsum ms * r)%R).
  { intros j Hj. unfold master_value. rewrite U. destruct (Reqb_spec (Rsum ms) 0) as [Z0|NZ]; cbn [negb].
    - destruct uniform; [|reflexivity]. rewrite n1_xr. change (n_ofZ 24) with (Fin 24).
      rewrite xdiv_Fin by lra. rewrite xmul_Fin. f_equal. lra.
    - rewrite <- (lookup_rows_on d) by
        (apply (grid_day_dates 24 us_hour); try reflexivity; apply grid_In; eauto).
      rewrite E, lookup_combine_grid by (try reflexivity; try assumption; rewrite map_length; exact L).
      rewrite nth_error_map, (nth_error_nth' ms 0%R) by lia. cbn [option_map].
      rewrite MT, xdiv_Fin by exact NZ. reflexivity. }
  unfold grid. rewrite map_map.
  rewrite (map_ext_in _ (fun j => if Reqb (Rsum ms) 0 then Fin (if uniform then r / 24 else 0)
                                  else Fin (nth j ms 0 / Rsum ms * r)%R))
    by (intros j Hj; apply in_seq in Hj; apply V; lia).
  destruct (Reqb (Rsum ms) 0); [reflexivity|].
  do 24 (destruct ms as [|? ms]; [discriminate L|]). destruct ms; [reflexivity|discriminate L].
Qed.

Lemma Rsum_scaled l s r : s <> 0%R -> Rsum (map (fun m => m / s * r)%R l) = (Rsum l / s * r)%R.
Proof.
  intro H. induction l as [|x l IH]; unfold Rsum in *; cbn [map fold_right]; [field; exact H|].
  rewrite IH. field. exact H.
Qed.

Lemma master_modern e d0 (amounts : list xr) master uniform : amounts <> [] -> has_iteritems e = false ->
  precip_master_station e (daily d0 amounts) master uniform = Err AttributeError.
Proof.
  intros NE HI. unfold precip_master_station, index. rewrite daily_fst.
  destruct amounts as [|x l]; [congruence|]. unfold hourly_index. cbn [length].
  rewrite hourly_index_daily. cbn [bind]. rewrite HI. reflexivity.
Qed.
