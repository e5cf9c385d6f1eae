(** precip_master_station, hours of a day assigned by position *)
From Coq Require Import ZArith List Bool Lia Sorted.
From Verif Require Import Py Num Cal Series UtilModel SpecBase TimeProofs CascadeModel PrecipModel MasterModel MasterStoreModel
  SpecCascade CascadeProofs CascadeFive EqualProofs MasterProofs MasterProofs2.
Import ListNotations.
Open Scope Z_scope.

Section Generic.
  Context {T : Type} {N : Num T} (tot : list T -> T).

  Lemma fill_rows_index d vals (out : series T) : map fst (fill_rows d vals out) = map fst out.
  Proof.
    revert vals. induction out as [|[t v] out IH]; intro vals; [reflexivity|]. cbn [fill_rows].
    destruct (date_of t =? d); [destruct vals|]; cbn [map fst]; f_equal; apply IH.
  Qed.
  Lemma rows_of_day_index d (a b : series T) : map fst a = map fst b -> rows_of_day d a = rows_of_day d b.
  Proof.
    unfold rows_of_day. revert b. induction a as [|[t v] a IH]; intros [|[t' v'] b] H; try discriminate; [reflexivity|].
    cbn [map fst] in H. injection H as <- H. cbn [filter fst]. destruct (date_of t =? d); cbn [length]; auto.
  Qed.
  Lemma fill_rows_on d vals (out : series T) : length vals = rows_of_day d out -> values_on d (fill_rows d vals out) = vals.
  Proof.
    unfold rows_of_day, values_on. revert vals. induction out as [|[t v] out IH]; intros vals L.
    - destruct vals; [reflexivity|discriminate].
    - cbn [filter fst fill_rows] in *. unfold date_of in *. destruct (t / us_day =? d) eqn:E.
      + destruct vals as [|x vals]; [discriminate|]. cbn [filter fst]. rewrite E. cbn [map snd]. f_equal. apply IH. cbn [length] in L. lia.
      + cbn [filter fst]. rewrite E. apply IH. exact L.
  Qed.
  Lemma fill_rows_off d d' vals (out : series T) : d' <> d -> values_on d' (fill_rows d vals out) = values_on d' out.
  Proof.
    intro H. unfold values_on. revert vals. induction out as [|[t v] out IH]; intro vals; [reflexivity|].
    cbn [fill_rows]. unfold date_of. destruct (Z.eqb_spec (t / us_day) d) as [E|E].
    - assert (F : (t / us_day =? d') = false) by (apply Z.eqb_neq; congruence).
      destruct vals; cbn [filter fst]; rewrite F; apply IH.
    - cbn [filter fst]. destruct (t / us_day =? d'); cbn [map]; [f_equal|]; apply IH.
  Qed.
  Lemma fill_rows_const d x (out : series T) :
    map (fun p => (fst p, if date_of (fst p) =? d then x else snd p)) out = fill_rows d (repeat x (rows_of_day d out)) out.
  Proof.
    unfold rows_of_day. induction out as [|[t v] out IH]; [reflexivity|]. cbn [map fill_rows filter fst snd].
    destruct (date_of t =? d); cbn [length repeat]; f_equal; exact IH.
  Qed.
  Lemma fill_rows_fun d (F : Z -> T) (out : series T) : fill_rows d (map F (map fst (rows_on d out))) out = set_day d F out.
  Proof.
    unfold set_day, rows_on. induction out as [|[t v] out IH]; [reflexivity|]. cbn [map fill_rows filter fst snd].
    unfold date_of. destruct (t / us_day =? d); cbn [map fst]; f_equal; exact IH.
  Qed.

  (** what a day with [n] rows gets, if anything *)
  Definition day_vals (master : series T) (uniform : bool) (d : Z) (a : T) (n : nat) : option (list T) :=
    if usable (total_with tot master d) then
      let vs := map (fun v => (v / total_with tot master d * a)%num) (values_on d master) in
      if Nat.eqb (length vs) n then Some vs else match vs with [x] => Some (repeat x n) | _ => None end
    else Some (repeat (if uniform then (n1 / n_ofZ 24 * a)%num else n0) n).
  Lemma day_vals_length master uniform d a n vs : day_vals master uniform d a n = Some vs -> length vs = n.
  Proof.
    unfold day_vals. destruct (usable _).
    - set (l := map _ _). destruct (Nat.eqb_spec (length l) n) as [E|E].
      + intro H. injection H as <-. exact E.
      + destruct l as [|x [|y l]]; try discriminate. intro H. injection H as <-. apply repeat_length.
    - intro H. injection H as <-. apply repeat_length.
  Qed.

  Lemma in_range (master : series T) d : StronglySorted Z.lt (map fst master) -> rows_on d master <> [] ->
    match master with
    | [] => false
    | (t0, _) :: _ => (d <? date_of t0) || (date_of (fst (last master (t0, n_nan))) <? d)
    end = false.
  Proof.
    intros SS NE. destruct master as [|[t0 v0] m]; [reflexivity|].
    pose proof (sorted_range m d t0 v0 SS NE) as [A B]. apply orb_false_iff. split; apply Z.ltb_ge; assumption.
  Qed.

  Lemma day_pos_ok master uniform out t a :
    StronglySorted Z.lt (map fst master) -> rows_on (date_of t) master <> [] ->
    master_day_pos tot master uniform out t a
    = match day_vals master uniform (date_of t) a (rows_of_day (date_of t) out) with
      | Some vs => Ok (fill_rows (date_of t) vs out)
      | None => Err ValueError
      end.
  Proof.
    intros SS NE. unfold master_day_pos. set (d := date_of t) in *. rewrite (in_range master d SS NE). cbv zeta.
    change (filter (fun p => date_of (fst p) =? d) master) with (rows_on d master).
    change (tot (values (rows_on d master))) with (total_with tot master d).
    fold (usable (total_with tot master d)). unfold day_vals. destruct (usable (total_with tot master d)).
    - change (values (rows_on d master)) with (values_on d master). cbv zeta. unfold store_by_position.
      set (vs := map _ (values_on d master)). destruct (Nat.eqb (length vs) (rows_of_day d out)); [reflexivity|].
      destruct vs as [|x [|y vs]]; reflexivity.
    - destruct uniform; f_equal; apply fill_rows_const.
  Qed.

  Lemma days_pos_ok master uniform (days : series T) :
    StronglySorted Z.lt (map fst master) ->
    (forall t, In t (map fst days) -> rows_on (date_of t) master <> []) ->
    NoDup (map date_of (map fst days)) ->
    forall out, (forall t, In t (map fst days) -> rows_of_day (date_of t) out = 24%nat) ->
    ((forall t a, In (t, a) days -> day_vals master uniform (date_of t) a 24 <> None) ->
       exists out', master_days_pos tot master uniform days out = Ok out' /\ map fst out' = map fst out /\
         (forall t a, In (t, a) days -> Some (values_on (date_of t) out') = day_vals master uniform (date_of t) a 24) /\
         (forall d, ~ In d (map date_of (map fst days)) -> values_on d out' = values_on d out)) /\
    ((exists t a, In (t, a) days /\ day_vals master uniform (date_of t) a 24 = None) ->
       master_days_pos tot master uniform days out = Err ValueError).
  Proof.
    intro SS. induction days as [|[t a] days IH]; intros HR ND out HL.
    - split; [|intros (t & a & [] & _)]. intros _. exists out. repeat split. intros ? ? [].
    - cbn [map fst] in ND, HR, HL. inversion ND as [|? ? NI ND']; subst. cbn [master_days_pos].
      rewrite day_pos_ok by (try exact SS; apply HR; left; reflexivity). rewrite (HL t (or_introl eq_refl)).
      assert (HL' : forall vs u, In u (map fst days) -> rows_of_day (date_of u) (fill_rows (date_of t) vs out) = 24%nat).
      { intros vs u Hu. rewrite (rows_of_day_index _ _ out) by apply fill_rows_index. apply HL. right. exact Hu. }
      split.
      + intro OKS. destruct (day_vals master uniform (date_of t) a 24) as [vs|] eqn:E; [|exfalso; exact (OKS t a (or_introl eq_refl) E)].
        cbn [bind].
        destruct (proj1 (IH (fun u Hu => HR u (or_intror Hu)) ND' (fill_rows (date_of t) vs out) (HL' vs))) as (out' & R & I & D & O).
        { intros u b Hu. apply OKS. right. exact Hu. }
        exists out'. split; [exact R|]. split; [rewrite I; apply fill_rows_index|]. split.
        * intros u b [H|H]; [|apply D; exact H]. injection H as <- <-. rewrite O by exact NI. rewrite E. f_equal.
          apply fill_rows_on. rewrite (HL t (or_introl eq_refl)). exact (day_vals_length _ _ _ _ _ _ E).
        * intros d Hd. rewrite O by (intro; apply Hd; right; assumption).
          apply fill_rows_off. intro; subst; apply Hd; left; reflexivity.
      + intros (u & b & [H|H] & E).
        * injection H as <- <-. rewrite E. reflexivity.
        * destruct (day_vals master uniform (date_of t) a 24) as [vs|]; [|reflexivity]. cbn [bind].
          apply (proj2 (IH (fun u Hu => HR u (or_intror Hu)) ND' (fill_rows (date_of t) vs out) (HL' vs))). eauto.
  Qed.

  Lemma daily_dates d0 (amounts : list T) :
    map date_of (map fst (daily d0 amounts)) = map (fun i => d0 + Z.of_nat i) (seq 0 (length amounts)).
  Proof.
    rewrite daily_fst. unfold daily_index, grid. rewrite map_map. apply map_ext. intro i.
    unfold date_of. replace (d0 * us_day + Z.of_nat i * us_day) with ((d0 + Z.of_nat i) * us_day) by lia.
    apply Z.div_mul. unfold us_day. lia.
  Qed.
  Lemma daily_date_in d0 (amounts : list T) t : In t (map fst (daily d0 amounts)) ->
    exists i, (i < length amounts)%nat /\ date_of t = d0 + Z.of_nat i.
  Proof.
    intro Ht. apply (in_map date_of) in Ht. rewrite daily_dates in Ht. apply in_map_iff in Ht.
    destruct Ht as (i & E & Hi). apply in_seq in Hi. exists i. split; [lia|symmetry; exact E].
  Qed.
  Lemma daily_in d0 (amounts : list T) i a : nth_error amounts i = Some a -> In ((d0 + Z.of_nat i) * us_day, a) (daily d0 amounts).
  Proof. intro H. apply nth_error_In with (n := i). rewrite daily_nth_error, H. reflexivity. Qed.
  Lemma daily_in_inv d0 (amounts : list T) t a : In (t, a) (daily d0 amounts) ->
    exists i, nth_error amounts i = Some a /\ date_of t = d0 + Z.of_nat i.
  Proof.
    intro H. apply In_nth_error in H. destruct H as [i H]. rewrite daily_nth_error in H.
    destruct (nth_error amounts i) as [b|] eqn:E; [|discriminate]. cbn [option_map] in H. injection H as <- <-.
    exists i. split; [exact E|]. unfold date_of. apply Z.div_mul. unfold us_day. lia.
  Qed.
  Lemma empty_rows d0 n i : (i < n)%nat -> rows_of_day (d0 + Z.of_nat i) (map (fun t => (t, n_nan : T)) (hours_index d0 n)) = 24%nat.
  Proof.
    intro Hi. unfold rows_of_day. change (filter (fun p : Z * T => date_of (fst p) =? d0 + Z.of_nat i)) with (@rows_on T (d0 + Z.of_nat i)).
    rewrite <- (map_length fst), (hours_rows_on d0 n i n_nan Hi). apply grid_length.
  Qed.

  Lemma station_pos e d0 (amounts : list T) master uniform :
    amounts <> [] -> has_iteritems e = true -> StronglySorted Z.lt (map fst master) ->
    (forall i, (i < length amounts)%nat -> rows_on (d0 + Z.of_nat i) master <> []) ->
    ((forall i a, nth_error amounts i = Some a -> day_vals master uniform (d0 + Z.of_nat i) a 24 <> None) ->
       exists out, precip_master_station_pos tot e (daily d0 amounts) master uniform = Ok out /\
         map fst out = hours_index d0 (length amounts) /\
         forall i a, nth_error amounts i = Some a -> Some (values_on (d0 + Z.of_nat i) out) = day_vals master uniform (d0 + Z.of_nat i) a 24) /\
    ((exists i a, nth_error amounts i = Some a /\ day_vals master uniform (d0 + Z.of_nat i) a 24 = None) ->
       precip_master_station_pos tot e (daily d0 amounts) master uniform = Err ValueError).
  Proof.
    intros NE HI SS CV. unfold precip_master_station_pos, index. rewrite daily_fst.
    assert (H : hourly_index e (daily_index d0 (length amounts)) = Ok (hours_index d0 (length amounts))).
    { destruct amounts as [|x l]; [congruence|]. unfold hourly_index. cbn [length]. apply hourly_index_daily. }
    rewrite H. cbn [bind]. rewrite HI.
    destruct (days_pos_ok master uniform (daily d0 amounts) SS) with (out := map (fun t => (t, n_nan : T)) (hours_index d0 (length amounts)))
      as [GOOD BAD].
    - intros t Ht. destruct (daily_date_in d0 amounts t Ht) as (i & Hi & ->). apply CV. exact Hi.
    - rewrite daily_dates. apply FinFun.Injective_map_NoDup; [|apply seq_NoDup]. intros x y. lia.
    - intros t Ht. destruct (daily_date_in d0 amounts t Ht) as (i & Hi & ->). apply empty_rows. exact Hi.
    - split.
      + intro OKS. destruct GOOD as (out & E & I & D & _).
        { intros t a Ht. destruct (daily_in_inv d0 amounts t a Ht) as (i & Hi & ->). apply OKS. exact Hi. }
        exists out. split; [exact E|]. split; [rewrite I, map_map; cbn [fst]; apply map_id|].
        intros i a Hi. specialize (D _ _ (daily_in d0 amounts i a Hi)). unfold date_of in D. rewrite Z.div_mul in D by (unfold us_day; lia). exact D.
      + intros (i & a & Hi & E). apply BAD. exists ((d0 + Z.of_nat i) * us_day), a. split; [apply daily_in; exact Hi|].
        unfold date_of. rewrite Z.div_mul by (unfold us_day; lia). exact E.
  Qed.

  (** ** days whose master hours are exactly the hours of the day *)
  Lemma lookup_sorted_map (f : T -> T) (s : series T) : StronglySorted Z.lt (map fst s) ->
    map f (map snd s) = map (fun u => match lookup u (map (fun p => (fst p, f (snd p))) s) with Some v => v | None => n_nan end) (map fst s).
  Proof.
    induction s as [|[t v] s IH]; intro SS; [reflexivity|]. cbn [map fst snd lookup] in *. inversion SS as [|? ? SS' F]; subst.
    rewrite Z.eqb_refl. f_equal. rewrite (IH SS'). apply map_ext_in. intros u Hu. rewrite Forall_forall in F. specialize (F u Hu).
    destruct (Z.eqb_spec t u); [lia|reflexivity].
  Qed.
  Lemma day_same master uniform out t a :
    StronglySorted Z.lt (map fst master) -> map fst (rows_on (date_of t) master) = map fst (rows_on (date_of t) out) ->
    master_day_pos tot master uniform out t a = master_day_with tot master uniform out t a.
  Proof.
    intros SS E. unfold master_day_pos, master_day_with. set (d := date_of t) in *.
    destruct (match master with [] => false | (t0, _) :: _ => (d <? date_of t0) || (date_of (fst (last master (t0, n_nan))) <? d) end); [reflexivity|].
    cbv zeta. change (filter (fun p => date_of (fst p) =? d) master) with (rows_on d master).
    set (sm := tot (values (rows_on d master))).
    destruct (negb (sm =? n0)%num && negb (sm =? (if n_isnan sm then n1 else n0))%num); [|reflexivity].
    assert (SR : StronglySorted Z.lt (map fst (rows_on d master))) by (apply filter_sorted; exact SS).
    assert (HD : has_dup (index (map (fun p => (fst p, (snd p / sm * a)%num)) (rows_on d master))) = false).
    { unfold index. rewrite map_map. cbn [fst]. apply has_dup_sorted. exact SR. }
    rewrite HD. unfold store_by_position, values. rewrite map_length.
    assert (L : length (map snd (rows_on d master)) = rows_of_day d out).
    { unfold rows_of_day. change (filter (fun p : Z * T => date_of (fst p) =? d)) with (@rows_on T d).
      rewrite map_length, <- (map_length fst), E. apply map_length. }
    rewrite L, Nat.eqb_refl. f_equal. rewrite (lookup_sorted_map (fun v => (v / sm * a)%num) _ SR), E. apply fill_rows_fun.
  Qed.
  Lemma rows_on_index (s1 s2 : series T) d : map fst s1 = map fst s2 -> map fst (rows_on d s1) = map fst (rows_on d s2).
  Proof.
    revert s2. induction s1 as [|[x y] s1 IH]; intros [|[x' y'] s2] H; try discriminate; [reflexivity|].
    cbn [map fst] in H. injection H as <- H. unfold rows_on. cbn [filter fst].
    destruct (x / us_day =? d); cbn [map fst]; [f_equal|]; apply IH; exact H.
  Qed.
  Lemma day_with_index master uniform out t a out' : master_day_with tot master uniform out t a = Ok out' -> map fst out' = map fst out.
  Proof.
    unfold master_day_with. set (d := date_of t).
    destruct (match master with [] => false | (t0, _) :: _ => (d <? date_of t0) || (date_of (fst (last master (t0, n_nan))) <? d) end); [discriminate|].
    cbv zeta. destruct (_ && _); [destruct (has_dup _); [discriminate|]|destruct uniform]; intro H; injection H as <-; rewrite map_map; reflexivity.
  Qed.
  Lemma days_same master uniform (days : series T) : StronglySorted Z.lt (map fst master) ->
    forall out, (forall t, In t (map fst days) -> map fst (rows_on (date_of t) master) = map fst (rows_on (date_of t) out)) ->
    master_days_pos tot master uniform days out = master_days_with tot master uniform days out.
  Proof.
    intro SS. induction days as [|[t a] days IH]; intros out H; [reflexivity|]. cbn [master_days_pos master_days_with].
    rewrite day_same by (try exact SS; apply H; left; reflexivity).
    destruct (master_day_with tot master uniform out t a) as [out'|] eqn:E; [|reflexivity]. cbn [bind]. apply IH.
    intros u Hu. rewrite (H u (or_intror Hu)). apply rows_on_index. symmetry. exact (day_with_index _ _ _ _ _ _ E).
  Qed.
  Lemma station_same e d0 (amounts : list T) master uniform : StronglySorted Z.lt (map fst master) ->
    (forall i, (i < length amounts)%nat -> map fst (rows_on (d0 + Z.of_nat i) master) = grid ((d0 + Z.of_nat i) * us_day) us_hour 24) ->
    precip_master_station_pos tot e (daily d0 amounts) master uniform = precip_master_station_with tot e (daily d0 amounts) master uniform.
  Proof.
    intros SS C. unfold precip_master_station_pos, precip_master_station_with, index. rewrite daily_fst.
    destruct amounts as [|x l]; [reflexivity|]. set (amounts := x :: l) in *.
    assert (H : hourly_index e (daily_index d0 (length amounts)) = Ok (hours_index d0 (length amounts))).
    { unfold hourly_index, amounts. cbn [length]. apply hourly_index_daily. }
    rewrite H. cbn [bind]. destruct (has_iteritems e); [|reflexivity]. apply days_same; [exact SS|].
    intros t Ht. destruct (daily_date_in d0 amounts t Ht) as (i & Hi & ->). rewrite (C i Hi). symmetry. apply hours_rows_on. exact Hi.
  Qed.
End Generic.
