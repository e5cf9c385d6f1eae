(** precip_master_station for any way of adding the master's hours *)
From Coq Require Import ZArith List Bool Lia Sorted.
From Verif Require Import Py Num Cal Series UtilModel SpecBase TimeProofs CascadeModel PrecipModel MasterModel
  SpecCascade CascadeProofs CascadeFive EqualProofs MasterProofs.
Import ListNotations.
Open Scope Z_scope.

Section Generic.
  Context {T : Type} {N : Num T} (tot : list T -> T).

  Definition total_with (master : series T) (d : Z) : T := tot (values_on d master).
  Definition value_with (master : series T) (uniform : bool) (d : Z) (a : T) (u : Z) : T :=
    if usable (total_with master d)
    then match lookup u master with Some v => (v / total_with master d * a)%num | None => n_nan end
    else if uniform then (n1 / n_ofZ 24 * a)%num else n0.

  Lemma day_with_ok master uniform out t a :
    StronglySorted Z.lt (map fst master) -> rows_on (date_of t) master <> [] ->
    master_day_with tot master uniform out t a
    = Ok (set_day (date_of t) (value_with master uniform (date_of t) a) out).
  Proof.
    intros SS NE. unfold master_day_with. set (d := date_of t) in *.
    assert (OFF : match master with
               | [] => false
               | (t0, _) :: _ => (d <? date_of t0) || (date_of (fst (last master (t0, n_nan))) <? d)
               end = false).
    { destruct master as [|[t0 v0] m]; [reflexivity|].
      pose proof (sorted_range m d t0 v0 SS NE) as [A B].
      apply orb_false_iff. split; apply Z.ltb_ge; assumption. }
    rewrite OFF. cbv zeta.
    change (filter (fun p => date_of (fst p) =? d) master) with (rows_on d master).
    change (tot (values (rows_on d master))) with (total_with master d).
    fold (usable (total_with master d)).
    destruct (usable (total_with master d)) eqn:U.
    - assert (HD : has_dup (index (map (fun p => (fst p, (snd p / total_with master d * a)%num))
                                  (rows_on d master))) = false).
      { unfold index. rewrite map_map. cbn [fst]. apply has_dup_sorted. apply filter_sorted. exact SS. }
      rewrite HD. f_equal. unfold set_day. apply map_ext. intros [u w]. cbn [fst snd]. f_equal.
      destruct (Z.eqb_spec (date_of u) d) as [E|]; [|reflexivity].
      unfold value_with. rewrite U.
      rewrite (lookup_map_snd (fun v => v / total_with master d * a)%num), lookup_rows_on by exact E.
      destruct (lookup u master); reflexivity.
    - unfold value_with. destruct uniform; f_equal; unfold set_day; apply map_ext; intros [u w]; cbn [fst snd];
        rewrite U; reflexivity.
  Qed.

  Lemma days_with_ok master uniform (days : series T) : 
    StronglySorted Z.lt (map fst master) ->
    (forall t, In t (map fst days) -> rows_on (date_of t) master <> []) ->
    NoDup (map date_of (map fst days)) ->
    forall out, exists out', master_days_with tot master uniform days out = Ok out' /\
      map fst out' = map fst out /\
      (forall t a, In (t, a) days ->
         values_on (date_of t) out'
         = map (value_with master uniform (date_of t) a) (map fst (rows_on (date_of t) out))) /\
      (forall d, ~ In d (map date_of (map fst days)) -> values_on d out' = values_on d out).
  Proof.
    intro SS. induction days as [|[t a] days IH]; intros HR ND out.
    - exists out. repeat split; [intros ? ? []].
    - cbn [map fst] in ND, HR. inversion ND as [|? ? NI ND']; subst.
      cbn [master_days_with]. rewrite day_with_ok by (try exact SS; apply HR; left; reflexivity). cbn [bind].
      destruct (IH (fun u Hu => HR u (or_intror Hu)) ND'
                  (set_day (date_of t) (value_with master uniform (date_of t) a) out))
        as (out' & E & I & D & O).
      exists out'. split; [exact E|]. split; [rewrite I; apply set_day_index|]. split.
      + intros u b [H|H].
        * injection H as <- <-. rewrite O by exact NI. apply set_day_on.
        * rewrite (D u b H). f_equal.
          assert (G : forall s1 s2 : series T, map fst s1 = map fst s2 ->
                      forall d, map fst (rows_on d s1) = map fst (rows_on d s2)).
          { clear. induction s1 as [|[x y] s1 IH]; intros [|[x' y'] s2] H d; try discriminate; [reflexivity|].
            cbn [map fst] in H. injection H as <- H. unfold rows_on. cbn [filter fst].
            destruct (x / us_day =? d); cbn [map fst]; [f_equal|]; apply IH; exact H. }
          apply G. apply set_day_index.
      + intros d Hd. rewrite O by (intro; apply Hd; right; assumption).
        apply set_day_off. intro; subst; apply Hd; left; reflexivity.
  Qed.

  Lemma station_with e d0 (amounts : list T) master uniform :
    amounts <> [] -> has_iteritems e = true ->
    StronglySorted Z.lt (map fst master) ->
    (forall i, (i < length amounts)%nat -> rows_on (d0 + Z.of_nat i) master <> []) ->
    exists out, precip_master_station_with tot e (daily d0 amounts) master uniform = Ok out /\
      map fst out = hours_index d0 (length amounts) /\
      forall i a, nth_error amounts i = Some a ->
        values_on (d0 + Z.of_nat i) out
        = map (value_with master uniform (d0 + Z.of_nat i) a)
              (grid ((d0 + Z.of_nat i) * us_day) us_hour 24).
  Proof.
    intros NE HI SS CV. unfold precip_master_station_with, index. rewrite daily_fst.
    assert (H : hourly_index e (daily_index d0 (length amounts)) = Ok (hours_index d0 (length amounts))).
    { destruct amounts as [|x l]; [congruence|]. unfold hourly_index. cbn [length]. apply hourly_index_daily. }
    rewrite H. cbn [bind]. rewrite HI.
    assert (DT : map date_of (map fst (daily d0 amounts)) = map (fun i => d0 + Z.of_nat i) (seq 0 (length amounts))).
    { rewrite daily_fst. unfold daily_index, grid. rewrite map_map. apply map_ext. intro i.
      unfold date_of. replace (d0 * us_day + Z.of_nat i * us_day) with ((d0 + Z.of_nat i) * us_day) by lia.
      apply Z.div_mul. unfold us_day. lia. }
    destruct (days_with_ok master uniform (daily d0 amounts) SS) with
      (out := map (fun t => (t, n_nan : T)) (hours_index d0 (length amounts)))
      as (out & E & I & D & _).
    - intros t Ht. apply (in_map date_of) in Ht. rewrite DT in Ht. apply in_map_iff in Ht.
      destruct Ht as (i & <- & Hi). apply in_seq in Hi. apply CV. lia.
    - rewrite DT. apply FinFun.Injective_map_NoDup; [|apply seq_NoDup]. intros x y. lia.
    - exists out. split; [exact E|]. split; [rewrite I, map_map; cbn [fst]; apply map_id|].
      intros i a Hi. assert (Hi' : (i < length amounts)%nat) by (apply nth_error_Some; congruence).
      assert (Hin : In ((d0 + Z.of_nat i) * us_day, a) (daily d0 amounts)).
      { apply nth_error_In with (n := i). rewrite daily_nth_error, Hi. reflexivity. }
      specialize (D _ _ Hin). unfold date_of in D. rewrite Z.div_mul in D by (unfold us_day; lia).
      rewrite D, hours_rows_on by exact Hi'. reflexivity.
  Qed.

End Generic.

(** the model of PrecipModel adds from left to right *)
Lemma station_with_nansum {T} {N : Num T} e (s master : series T) uniform :
  precip_master_station_with nansum e s master uniform = precip_master_station e s master uniform.
Proof.
  unfold precip_master_station_with, precip_master_station. destruct (hourly_index e (index s)) as [idx|]; [|reflexivity]. cbn [bind].
  destruct (has_iteritems e); [|reflexivity]. generalize (map (fun t => (t, n_nan)) idx).
  induction s as [|[t p] s IH]; intro out; [reflexivity|]. cbn [master_days_with master_days].
  change (master_day_with nansum master uniform out t p) with (master_day master uniform out t p).
  destruct (master_day master uniform out t p); [apply IH|reflexivity].
Qed.
