(** From the boxes of the last level to hours, missing days, shift. *)
From Coq Require Import ZArith List Bool Lia Reals Lra Floats.
From Verif Require Import Py Num Cal Series UtilModel SpecBase TimeProofs CascadeModel PrecipModel
  SpecCascade CascadeProofs CascadeSteps CascadeExact CascadeFloat CascadeMore.
Import ListNotations.
Open Scope Z_scope.

Section Generic.
  Context {T : Type} {N : Num T}.

  Lemma cascade_full_inv e d0 (amounts : list T) arg lvl shft draws pos r :
    disagg_prec_cascade_full e (daily d0 amounts) arg true lvl shft draws pos = Ok (Some r) ->
    (2 <= length amounts)%nat /\
    exists boxes : list T,
      last (cr_levels r) [] = boxes /\
      refines 5 (map fill0 amounts) boxes /\
      let h := restore_missing (missing_days (daily d0 amounts))
                 (combine (hours_index d0 (length amounts)) (to_hours boxes)) in
      cr_out r = if shft =? 0 then h else shift shft h.
  Proof.
    unfold disagg_prec_cascade_full. intro H.
    destruct (Nat.ltb_spec (length (daily d0 amounts)) 2) as [?|Hlen]; [discriminate|].
    rewrite daily_length in Hlen.
    apply bind_Ok in H. destruct H as (u & _ & H). clear u.
    apply bind_Ok in H. destruct H as (o & L & H).
    destruct o as [acc|]; [|discriminate].
    destruct (levels_from_refines _ _ _ _ _ _ _ _ _ _ (st0_ok pos) L)
      as [[E _]|(boxes & rest & -> & R)]; [discriminate|].
    apply bind_Ok in H. destruct H as (o2 & H2 & H).
    injection H as <-. cbn [cr_levels cr_out].
    apply bind_Ok in H2. destruct H2 as (idx & HI & HM).
    split; [exact Hlen|]. exists boxes. split; [cbn [rev]; apply last_last|].
    split; [rewrite <- (zero_missing_values d0); exact R|].
    cbv zeta.
    assert (idx = hours_index d0 (length amounts)) as ->.
    { rewrite zero_missing_index in HI. unfold index in HI. rewrite daily_fst in HI.
      destruct (length amounts) as [|n]; [lia|].
      unfold hourly_index in HI. rewrite hourly_index_daily in HI. injection HI as <-. reflexivity. }
    unfold mk_series in HM. destruct (Nat.eqb _ _); [|discriminate].
    injection HM as <-. reflexivity.
  Qed.

  Lemma cascade_missing_days e d0 (amounts : list T) arg lvl draws pos out :
    disagg_prec_cascade e (daily d0 amounts) arg true lvl 0 draws pos = Ok (Some out) ->
    forall i a, nth_error amounts i = Some a -> n_isnan a = true ->
    values_on (d0 + Z.of_nat i) out = repeat n_nan 24.
  Proof.
    intros H i a Hi Ha.
    destruct (cascade_hourly_inv _ _ _ _ _ _ _ _ _ H) as (Hlen & boxes & R0 & ->).
    rewrite Z.eqb_refl. cbv zeta.
    rewrite (restored_day d0 amounts _ i _ (hourly_boxes_length _ _ _ R0) Hi), Ha. reflexivity.
  Qed.

  Lemma cascade_shift e s arg hourly lvl k draws pos (out0 : series T) :
    disagg_prec_cascade e s arg hourly lvl 0 draws pos = Ok (Some out0) ->
    exists out, disagg_prec_cascade e s arg hourly lvl k draws pos = Ok (Some out) /\
      map fst out = map fst out0 /\
      forall p, (p < length out0)%nat ->
        nth_error (map snd out) p =
        if (0 <=? Z.of_nat p - k) && (Z.of_nat p - k <? Z.of_nat (length out0))
        then nth_error (map snd out0) (Z.to_nat (Z.of_nat p - k)) else Some n_nan.
  Proof.
    rewrite !cascade_core. intro H.
    destruct (Nat.ltb _ _); [discriminate|].
    destruct (core _ _ _ _ _ _ _) as [[[lv o]|]|]; try discriminate.
    cbn [Z.eqb] in H. cbv zeta in *.
    set (x := restore_missing (missing_days s) o) in *.
    assert (x = out0) by congruence. clear H. subst out0.
    eexists. split; [reflexivity|]. destruct (Z.eqb_spec k 0) as [->|Hk].
    - split; [reflexivity|]. intros p Hp. rewrite Z.sub_0_r.
      destruct (Z.leb_spec 0 (Z.of_nat p)); [|lia].
      destruct (Z.ltb_spec (Z.of_nat p) (Z.of_nat (length x))); [|lia]. cbn [andb].
      rewrite Nat2Z.id. reflexivity.
    - split; [exact (shift_index k x)|].
      intros p Hp. unfold shift.
      assert (L : length (index x) = length (shift_values k (values x))).
      { rewrite shift_values_length. unfold index, values. rewrite !map_length. reflexivity. }
      rewrite map_snd_combine by exact L.
      rewrite shift_values_nth by (unfold values; rewrite map_length; exact Hp).
      unfold values. rewrite map_length. reflexivity.
  Qed.
End Generic.

Lemma nth_tri bs q : nth q (flat_map tri bs) 0%R = quarter bs q.
Proof.
  unfold quarter. revert q. induction bs as [|b bs IH]; intro q.
  - cbn [flat_map]. generalize (q / 3)%nat. intro k. destruct q, k; cbn [nth]; lra.
  - cbn [flat_map tri app]. destruct q as [|[|[|q]]]; try reflexivity.
    cbn [nth]. rewrite IH.
    replace (S (S (S q)) / 3)%nat with (S (q / 3)).
    + reflexivity.
    + replace (S (S (S q))) with (1 * 3 + q)%nat by lia. rewrite Nat.div_add_l by lia. lia.
Qed.

Lemma chunk4_sum (l : list R) m : (4 * m + 4 <= length l)%nat ->
  Rsum (chunk 4 m l) = (nth (4*m) l 0 + nth (4*m+1) l 0 + nth (4*m+2) l 0 + nth (4*m+3) l 0)%R.
Proof.
  intro H. unfold chunk.
  assert (N : forall j, nth (4 * m + j) l 0%R = nth j (skipn (4 * m) l) 0%R).
  { intro j. rewrite <- (firstn_skipn (4 * m) l) at 1.
    rewrite app_nth2; rewrite firstn_length_le by lia; [|lia]. f_equal. lia. }
  rewrite <- (Nat.add_0_r (4 * m)) at 2. rewrite !N.
  assert (L : (4 <= length (skipn (4 * m) l))%nat) by (rewrite skipn_length; lia).
  destruct (skipn (4 * m) l) as [|a [|b [|c [|d r]]]]; cbn [length] in L; try lia.
  cbn [firstn nth]. unfold Rsum; cbn [fold_right]. lra.
Qed.

Lemma seq_offset n : forall a, seq a n = map (fun h => (a + h)%nat) (seq 0 n).
Proof.
  induction n as [|n IH]; intro a; [reflexivity|]. cbn [seq map]. f_equal; [lia|].
  rewrite (IH (S a)), (IH 1%nat), map_map. apply map_ext. intro h. lia.
Qed.

Lemma cascade_hours_from_boxes e d0 amounts arg lvl draws pos r :
  Forall amount_ok amounts ->
  disagg_prec_cascade_full e (daily d0 amounts) arg true lvl 0 draws pos = Ok (Some r) ->
  exists boxes, last (cr_levels r) [] = map Fin boxes /\ length boxes = (32 * length amounts)%nat /\
  forall i x, nth_error amounts i = Some (Fin x) ->
    values_on (d0 + Z.of_nat i) (cr_out r)
    = map (fun h => Fin (hour_of_boxes boxes (24 * i + h))) (seq 0 24).
Proof.
  intros HA H. destruct (cascade_full_inv _ _ _ _ _ _ _ _ _ H) as (Hlen & boxes & El & Rf & Eo).
  cbn [Z.eqb] in Eo. cbv zeta in Eo.
  destruct (fill0_list _ HA) as [EF FF]. rewrite EF in Rf.
  pose proof (refines_length _ _ _ Rf) as BL. rewrite !map_length in BL.
  destruct (refines_xr _ _ _ FF Rf) as (bs & E2 & Fb & Hb). subst boxes. rewrite E2 in *.
  rewrite map_length in BL. change (2 ^ 5)%nat with 32%nat in BL.
  exists bs. split; [reflexivity|]. split; [exact BL|].
  intros i x Hi. rewrite Eo.
  assert (HL : length (to_hours (map Fin bs)) = (24 * length amounts)%nat).
  { apply to_hours_length. rewrite map_length. exact BL. }
  rewrite (restored_day d0 amounts _ i _ HL Hi). cbn [n_isnan Num_xr xisnan].
  rewrite (to_hours_xr (length amounts)) by exact BL.
  assert (Hi' : (i < length amounts)%nat) by (apply nth_error_Some; congruence).
  rewrite chunk_map, chunk_blocksum by lia. rewrite map_map.
  replace (seq (24 * i) 24) with (map (fun h => (24 * i + h)%nat) (seq 0 24)).
  2:{ symmetry. apply seq_offset. }
  rewrite map_map. apply map_ext_in. intros h Hh. apply in_seq in Hh. f_equal.
  rewrite chunk4_sum by (rewrite flat_map_tri_length; lia).
  rewrite !nth_tri. reflexivity.
Qed.
