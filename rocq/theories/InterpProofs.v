(** Observation placement and linear interpolation. *)
From Coq Require Import ZArith List Bool Lia Reals Lra Permutation.
From Verif Require Import Py Num Cal Series UtilModel UtilModel2 InterpModel SpecBase SpecUtil SpecInterp TimeProofs IndexProofs EqualProofs DaysProofs.
Import ListNotations.
Open Scope Z_scope.

Section Generic.
  Context {T : Type} {N : Num T}.

  Lemma has_dup_NoDup l : has_dup l = false <-> NoDup l.
  Proof.
    induction l as [|a l IH]; [split; [constructor|reflexivity]|]. cbn [has_dup]. rewrite orb_false_iff, IH. split.
    - intros [H1 H2]. constructor; [|exact H2]. intro C. apply mem_In in C. congruence.
    - intro H. inversion H; subst. split; [|assumption]. apply not_true_iff_false. rewrite mem_In. assumption.
  Qed.
  Lemma insert_perm p (l : series T) : Permutation (insert_obs p l) (p :: l).
  Proof.
    induction l as [|q l IH]; [reflexivity|]. cbn [insert_obs]. destruct (_ <=? _); [reflexivity|]. rewrite IH. apply perm_swap.
  Qed.
  Lemma sort_perm (l : series T) : Permutation (fold_right insert_obs [] l) l.
  Proof. induction l as [|p l IH]; [reflexivity|]. cbn [fold_right]. rewrite insert_perm, IH. reflexivity. Qed.
  Lemma lookup_In {A} t (v : A) l : NoDup (map fst l) -> (lookup t l = Some v <-> In (t, v) l).
  Proof.
    induction l as [|[u w] l IH]; [split; [discriminate|intros []]|]. cbn [map fst lookup]. intro H. inversion H; subst.
    destruct (Z.eqb_spec u t) as [->|NE].
    - split; [intro E; injection E as ->; left; reflexivity|]. intros [E|C]; [congruence|]. exfalso. apply H2. apply in_map_iff. exists (t, v). auto.
    - rewrite IH by assumption. split; [intro; right; assumption|]. intros [E|C]; [congruence|assumption].
  Qed.
  Lemma lookup_none {A} t (l : list (Z * A)) : lookup t l = None <-> ~ In t (map fst l).
  Proof.
    induction l as [|[u w] l IH]; [split; [intros _ []|reflexivity]|]. cbn [map fst lookup In]. destruct (Z.eqb_spec u t) as [->|NE].
    - split; [discriminate|]. intro H. exfalso. apply H. left. reflexivity.
    - rewrite IH. tauto.
  Qed.
  Lemma lookup_perm {A} t (l1 l2 : list (Z * A)) : Permutation l1 l2 -> NoDup (map fst l2) -> lookup t l1 = lookup t l2.
  Proof.
    intros P ND. assert (ND1 : NoDup (map fst l1)) by (eapply Permutation_NoDup; [symmetry; apply Permutation_map; exact P|exact ND]).
    destruct (lookup t l2) as [v|] eqn:E.
    - apply lookup_In; [exact ND1|]. apply lookup_In in E; [|exact ND]. eapply Permutation_in; [symmetry; exact P|exact E].
    - apply lookup_none. apply lookup_none in E. intro C. apply E. eapply Permutation_in; [apply Permutation_map; exact P|exact C].
  Qed.

  (** one column *)
  Definition col_series (d0 : Z) (n : nat) (c : Z * list T) : series T :=
    combine (map (fun i => stamp (d0 + Z.of_nat i) (Z.to_nat (fst c))) (seq 0 n)) (snd c).
  Definition col_ok (n : nat) (c : Z * list T) : Prop := 0 <= fst c < 24 /\ length (snd c) = n.

  Lemma last_daily d0 n : last (daily_index d0 (S n)) 0 = (d0 + Z.of_nat n) * us_day.
  Proof.
    unfold daily_index. replace (S n) with (n + 1)%nat by lia. rewrite grid_app, grid_S. unfold grid at 2. cbn [seq map]. rewrite last_last. lia.
  Qed.
  Lemma replace_hour_midnight d h : replace_hour (d * us_day) h = d * us_day + h * us_hour.
  Proof.
    unfold replace_hour. rewrite day_start_date. unfold below_hour, tod.
    rewrite Z.mod_mul by discriminate. rewrite Z.mod_0_l by discriminate. lia.
  Qed.
  Lemma collect_ok e d0 n : has_series_append e = true -> forall cols acc, Forall (col_ok (S n)) cols ->
    collect_columns e (daily_index d0 (S n)) cols acc = Ok (acc ++ flat_map (col_series d0 (S n)) cols).
  Proof.
    intro HE. induction cols as [|[h v] cols IH]; intros acc F; [cbn; rewrite app_nil_r; reflexivity|].
    inversion F as [|? ? [H1 H2] F']; subst. cbn [fst snd] in *. cbn [collect_columns flat_map].
    assert (HD : hd 0 (daily_index d0 (S n)) = d0 * us_day) by (unfold daily_index; rewrite grid_S; reflexivity).
    rewrite HD, last_daily, !replace_hour_midnight, date_range_grid by (unfold us_day; lia).
    replace (((d0 + Z.of_nat n) * us_day + h * us_hour - (d0 * us_day + h * us_hour)) / us_day + 1) with (Z.of_nat (S n)).
    2:{ replace ((d0 + Z.of_nat n) * us_day + h * us_hour - (d0 * us_day + h * us_hour)) with (Z.of_nat n * us_day) by lia.
        rewrite Z.div_mul by discriminate. lia. }
    rewrite Nat2Z.id. unfold mk_series. rewrite grid_length, H2, Nat.eqb_refl. cbn [bind]. rewrite HE, IH by exact F'.
    f_equal. rewrite <- app_assoc. f_equal. f_equal. unfold col_series. cbn [fst snd]. f_equal. unfold grid. apply map_ext. intro i.
    unfold stamp. rewrite Z2Nat.id by lia. lia.
  Qed.

  Lemma col_keys d0 n c t : length (snd c) = n -> 0 <= fst c < 24 ->
    In t (map fst (col_series d0 n c)) -> exists i, (i < n)%nat /\ t = stamp (d0 + Z.of_nat i) (Z.to_nat (fst c)).
  Proof.
    intros L H. unfold col_series. rewrite map_fst_combine by (rewrite map_length, seq_length; auto). intro I.
    apply in_map_iff in I as (i & <- & Hi). apply in_seq in Hi. exists i. split; [lia|reflexivity].
  Qed.
  Lemma stamp_inj d d' h h' : (h < 24)%nat -> (h' < 24)%nat -> stamp d h = stamp d' h' -> d = d' /\ h = h'.
  Proof.
    intros H H' E. split.
    - rewrite <- (stamp_date d h H), <- (stamp_date d' h' H'), E. reflexivity.
    - apply Nat2Z.inj. rewrite <- (stamp_hour d h H), <- (stamp_hour d' h' H'), E. reflexivity.
  Qed.
  Lemma NoDup_app_intro {A} (a b : list A) : NoDup a -> NoDup b -> (forall x, In x a -> ~ In x b) -> NoDup (a ++ b).
  Proof.
    intros Ha Hb H. induction Ha as [|x a Hx Ha IH]; [exact Hb|]. cbn. constructor.
    - intro C. apply in_app_iff in C as [C|C]; [contradiction|]. exact (H x (or_introl eq_refl) C).
    - apply IH. intros y Hy. apply H. right. exact Hy.
  Qed.
  Lemma cols_nodup d0 n cols : Forall (col_ok n) cols -> NoDup (map fst cols) ->
    NoDup (map fst (flat_map (col_series d0 n) cols)).
  Proof.
    induction cols as [|c cols IH]; intros F ND; [constructor|]. inversion F as [|? ? [H1 H2] F']; subst. inversion ND as [|? ? NI ND']; subst.
    cbn [flat_map]. rewrite map_app. apply NoDup_app_intro.
    - unfold col_series. rewrite map_fst_combine by (rewrite map_length, seq_length; reflexivity).
      apply FinFun.Injective_map_NoDup; [|apply seq_NoDup]. intros i j E. apply stamp_inj in E; lia.
    - apply IH; assumption.
    - intros t Ht C. apply (col_keys d0 _ c) in Ht; [|reflexivity|exact H1]. destruct Ht as (i & Hi & ->).
      apply in_map_iff in C as (p & Ep & Hp). apply in_flat_map in Hp as (c' & Hc & Hp).
      rewrite Forall_forall in F'. destruct (F' c' Hc) as [H3 H4].
      assert (IN : In (fst p) (map fst (col_series d0 (length (snd c)) c'))) by (apply in_map; exact Hp).
      apply (col_keys d0 _ c') in IN; [|exact H4|exact H3]. destruct IN as (j & Hj & E). rewrite Ep in E.
      apply stamp_inj in E; [|lia|lia]. destruct E as [_ E]. apply NI. apply in_map_iff. exists c'. split; [lia|exact Hc].
  Qed.
  Lemma nth_combine_In {A B} (a : list A) (b : list B) i da db : length a = length b -> (i < length a)%nat ->
    In (nth i a da, nth i b db) (combine a b).
  Proof.
    intros L Hi. rewrite <- combine_nth by exact L. apply nth_In. rewrite combine_length. lia.
  Qed.

  Lemma prepare_ok e d0 n (cols : list (Z * list T)) : has_series_append e = true ->
    Forall (col_ok (S n)) cols -> NoDup (map fst cols) ->
    exists data, prepare_interpolation_data e (daily_index d0 (S n)) cols = Ok data /\
      map fst data = hours_index d0 (S n) /\
      forall i h, (i < S n)%nat -> (h < 24)%nat ->
        nth h (values_on (d0 + Z.of_nat i) data) n_nan
        = match lookup (Z.of_nat h) cols with Some v => nth i v n_nan | None => n_nan end.
  Proof.
    intros HE F ND. set (raw := flat_map (col_series d0 (S n)) cols).
    assert (NDR : NoDup (map fst raw)) by (apply cols_nodup; assumption).
    exists (map (fun t => (t, match lookup t raw with Some v => v | None => n_nan end)) (hours_index d0 (S n))).
    split; [|split].
    - unfold prepare_interpolation_data. replace (daily_index d0 (S n)) with (d0 * us_day :: grid (d0 * us_day + us_day) us_day n) at 1
        by (unfold daily_index; rewrite grid_S; reflexivity).
      rewrite collect_ok by assumption. cbn [bind app]. fold raw.
      unfold hourly_index. rewrite hourly_index_daily. cbn [bind].
      pose proof (sort_perm raw) as P.
      assert (ND2 : NoDup (map fst (fold_right insert_obs [] raw))).
      { eapply Permutation_NoDup; [symmetry; apply Permutation_map; exact P|exact NDR]. }
      unfold reindex, index. rewrite (proj2 (has_dup_NoDup _) ND2). f_equal. apply map_ext. intro t. rewrite (lookup_perm t _ _ P NDR). reflexivity.
    - rewrite map_map. apply map_id.
    - intros i h Hi Hh. rewrite values_on_map_hours by exact Hi.
      set (G := fun h0 => match lookup (stamp (d0 + Z.of_nat i) h0) raw with Some v => v | None => n_nan end).
      rewrite nth_indep with (d' := G 0%nat) by (rewrite map_length, seq_length; exact Hh).
      rewrite (map_nth G), seq_nth by exact Hh. cbn [Nat.add]. unfold G. clear G.
      destruct (lookup (Z.of_nat h) cols) as [v|] eqn:EL.
      + apply lookup_In in EL; [|exact ND]. rewrite Forall_forall in F. destruct (F _ EL) as [H1 H2]. cbn [fst snd] in *.
        assert (IN : In (stamp (d0 + Z.of_nat i) h, nth i v n_nan) raw).
        { unfold raw. apply in_flat_map. exists (Z.of_nat h, v). split; [exact EL|]. unfold col_series. cbn [fst snd]. rewrite Nat2Z.id.
          set (L := map (fun j => stamp (d0 + Z.of_nat j) h) (seq 0 (S n))).
          assert (LL : length L = S n) by (unfold L; rewrite map_length, seq_length; reflexivity).
          replace (stamp (d0 + Z.of_nat i) h) with (nth i L 0); [apply nth_combine_In; lia|].
          unfold L. set (G := fun j => stamp (d0 + Z.of_nat j) h). rewrite nth_indep with (d' := G 0%nat) by (rewrite map_length, seq_length; exact Hi).
          rewrite (map_nth G), seq_nth by exact Hi. reflexivity. }
        apply (lookup_In _ _ _ NDR) in IN. rewrite IN. reflexivity.
      + destruct (lookup _ raw) as [v|] eqn:ER; [|reflexivity]. exfalso.
        apply (lookup_In _ _ _ NDR) in ER. unfold raw in ER. apply in_flat_map in ER as (c & Hc & Hp).
        rewrite Forall_forall in F. destruct (F c Hc) as [H1 H2].
        assert (IN : In (stamp (d0 + Z.of_nat i) h) (map fst (col_series d0 (S n) c))) by (apply in_map_iff; eexists; split; [|exact Hp]; reflexivity).
        apply (col_keys d0 _ c) in IN; [|exact H2|exact H1]. destruct IN as (j & Hj & E).
        apply stamp_inj in E; [|lia|lia]. destruct E as [_ E]. apply lookup_none in EL. apply EL. apply in_map_iff. exists c. split; [lia|exact Hc].
  Qed.
  Lemma prepare_modern e d0 n c (cols : list (Z * list T)) : has_series_append e = false -> col_ok (S n) c ->
    prepare_interpolation_data e (daily_index d0 (S n)) (c :: cols) = Err AttributeError.
  Proof.
    intros HE [H1 H2]. destruct c as [h v]. cbn [fst snd] in *.
    unfold prepare_interpolation_data. replace (daily_index d0 (S n)) with (d0 * us_day :: grid (d0 * us_day + us_day) us_day n) at 1
      by (unfold daily_index; rewrite grid_S; reflexivity).
    cbn [collect_columns].
    assert (HD : hd 0 (daily_index d0 (S n)) = d0 * us_day) by (unfold daily_index; rewrite grid_S; reflexivity).
    rewrite HD, last_daily, !replace_hour_midnight, date_range_grid by (unfold us_day; lia).
    replace (((d0 + Z.of_nat n) * us_day + h * us_hour - (d0 * us_day + h * us_hour)) / us_day + 1) with (Z.of_nat (S n)).
    2:{ replace ((d0 + Z.of_nat n) * us_day + h * us_hour - (d0 * us_day + h * us_hour)) with (Z.of_nat n * us_day) by lia.
        rewrite Z.div_mul by discriminate. lia. }
    rewrite Nat2Z.id. unfold mk_series. rewrite grid_length, H2, Nat.eqb_refl. cbn [bind]. rewrite HE. reflexivity.
  Qed.

  (** ** linear interpolation *)
  Lemma scan_run (l : list T) x rest : Forall (fun y => n_isnan y = true) l -> n_isnan x = false ->
    forall k, scan k (l ++ x :: rest) = Some (k + Z.of_nat (length l), x).
  Proof.
    intros F Hx. induction F as [|y l Hy F IH]; intro k; cbn [app scan length].
    - rewrite Hx. repeat f_equal. lia.
    - rewrite Hy, IH. do 2 f_equal. lia.
  Qed.
  Lemma scan_none (l : list T) : Forall (fun y => n_isnan y = true) l -> forall k, scan k l = None.
  Proof. intro F. induction F as [|y l Hy F IH]; intro k; cbn [scan]; [reflexivity|]. rewrite Hy. apply IH. Qed.
End Generic.

Lemma within_beyond {T} limit k (a : T) : beyond limit (Some (k, a)) = negb (within limit k).
Proof. destruct limit as [m|]; [|reflexivity]. cbn [beyond within]. rewrite Z.ltb_antisym. reflexivity. Qed.
Lemma preserved_inside {T} dir limit p q (a b : T) : preserved dir limit (Some (p, a)) (Some (q, b)) = negb (forward_ok dir limit p || backward_ok dir limit q).
Proof. destruct dir; cbn [preserved absent forward_ok backward_ok orb]; rewrite !within_beyond, ?orb_false_r, ?negb_orb; reflexivity. Qed.
Lemma beyond_none {T} limit : beyond (T := T) limit None = match limit with None => false | Some _ => true end.
Proof. destruct limit; reflexivity. Qed.
Lemma preserved_leading {T} dir limit q (b : T) : preserved dir limit None (Some (q, b)) = negb (backward_ok dir limit q).
Proof. destruct dir; cbn [preserved absent backward_ok orb]; rewrite ?within_beyond; [reflexivity..|]. destruct limit; reflexivity. Qed.
Lemma preserved_trailing {T} dir limit p (a : T) : preserved dir limit (Some (p, a)) None = negb (forward_ok dir limit p).
Proof. destruct dir; cbn [preserved absent forward_ok orb]; rewrite ?within_beyond; [reflexivity..|]. destruct limit; cbn; rewrite ?andb_true_r; reflexivity. Qed.

Lemma interp_length dir limit (l : list xr) : length (interpolate_linear dir limit l) = length l.
Proof. unfold interpolate_linear. rewrite map_length, seq_length. reflexivity. Qed.
Lemma interp_nth dir limit (l : list xr) i : (i < length l)%nat -> nth i (interpolate_linear dir limit l) NaN = interp_at dir limit l i.
Proof.
  intro H. unfold interpolate_linear. rewrite nth_indep with (d' := interp_at dir limit l 0) by (rewrite map_length, seq_length; exact H).
  rewrite (map_nth (interp_at dir limit l)), seq_nth by exact H. reflexivity.
Qed.
Lemma repeat_nan k : Forall (fun y : xr => n_isnan y = true) (repeat NaN k).
Proof. apply Forall_forall. intros y Hy. apply repeat_spec in Hy. subst. reflexivity. Qed.

Lemma interp_inside dir limit pre a gap b post j : (j < gap)%nat ->
  let l := pre ++ Fin a :: repeat NaN gap ++ Fin b :: post in
  nth (length pre + 1 + j) (interpolate_linear dir limit l) NaN
  = if forward_ok dir limit (Z.of_nat j + 1) || backward_ok dir limit (Z.of_nat gap - Z.of_nat j)
    then Fin (a + (b - a) * (INR j + 1) / (INR gap + 1)) else NaN.
Proof.
  intros Hj l.
  assert (Len : length l = (length pre + gap + 2 + length post)%nat).
  { unfold l. rewrite app_length. cbn [length]. rewrite app_length, repeat_length. cbn [length]. lia. }
  rewrite interp_nth by lia. unfold interp_at.
  set (i := (length pre + 1 + j)%nat).
  assert (E : l = (pre ++ Fin a :: repeat NaN j) ++ NaN :: repeat NaN (gap - S j) ++ Fin b :: post).
  { unfold l. rewrite <- app_assoc. f_equal. cbn [app]. f_equal. replace gap with (j + S (gap - S j))%nat at 1 by lia.
    rewrite repeat_app, <- app_assoc. cbn [repeat app]. reflexivity. }
  assert (LP : length (pre ++ Fin a :: repeat NaN j) = i) by (rewrite app_length; cbn [length]; rewrite repeat_length; unfold i; lia).
  assert (EN : nth i l NaN = NaN) by (rewrite E, app_nth2 by lia; rewrite LP, Nat.sub_diag; reflexivity).
  assert (EF : firstn i l = pre ++ Fin a :: repeat NaN j).
  { rewrite E, firstn_app, LP, Nat.sub_diag, firstn_O, app_nil_r. apply firstn_all2. lia. }
  assert (ES : skipn (S i) l = repeat NaN (gap - S j) ++ Fin b :: post).
  { rewrite E, skipn_app, skipn_all2 by lia. rewrite LP. replace (S i - i)%nat with 1%nat by lia. reflexivity. }
  change (n_nan : xr) with NaN. rewrite EN. cbn [n_isnan Num_xr xisnan]. rewrite EF, ES.
  assert (ER : rev (pre ++ Fin a :: repeat NaN j) = repeat NaN j ++ Fin a :: rev pre).
  { rewrite rev_app_distr. cbn [rev]. rewrite <- app_assoc. cbn [app]. f_equal.
    clear. induction j as [|j IH]; [reflexivity|]. cbn [repeat rev]. rewrite IH. 
    clear. induction j as [|j IH]; [reflexivity|]. cbn. f_equal. exact IH. }
  rewrite ER, !scan_run by (try apply repeat_nan; reflexivity). rewrite !repeat_length.
  replace (1 + Z.of_nat (gap - S j)) with (Z.of_nat gap - Z.of_nat j) by lia. rewrite preserved_inside. rewrite (Z.add_comm 1 (Z.of_nat j)) at 1.
  destruct (_ || _); cbn [negb]; [|reflexivity].
  replace (1 + Z.of_nat j + (Z.of_nat gap - Z.of_nat j)) with (Z.of_nat gap + 1) by lia.
  change (n_ofZ (Z.of_nat gap + 1)) with (Fin (IZR (Z.of_nat gap + 1))).
  change (n_ofZ (1 + Z.of_nat j)) with (Fin (IZR (1 + Z.of_nat j))).
  rewrite plus_IZR, (Z.add_comm 1), plus_IZR, <- !INR_IZR_INZ.
  pose proof (pos_INR gap). rewrite xsub_Fin, xdiv_Fin by lra. rewrite xmul_Fin, xadd_Fin. f_equal. field. lra.
Qed.
Lemma interp_keeps dir limit (l : list xr) i r : nth i l NaN = Fin r -> nth i (interpolate_linear dir limit l) NaN = Fin r.
Proof.
  intro H. assert (i < length l)%nat.
  { destruct (Nat.lt_ge_cases i (length l)); [assumption|]. rewrite nth_overflow in H by assumption. discriminate. }
  rewrite interp_nth by assumption. unfold interp_at. change (n_nan : xr) with NaN. rewrite H. reflexivity.
Qed.
Lemma interp_leading dir limit gap b post j : (j < gap)%nat ->
  nth j (interpolate_linear dir limit (repeat NaN gap ++ Fin b :: post)) NaN
  = if backward_ok dir limit (Z.of_nat gap - Z.of_nat j) then Fin b else NaN.
Proof.
  intro Hj. set (l := repeat NaN gap ++ Fin b :: post).
  assert (E : l = repeat NaN j ++ NaN :: repeat NaN (gap - S j) ++ Fin b :: post).
  { unfold l. replace gap with (j + S (gap - S j))%nat at 1 by lia. rewrite repeat_app, <- app_assoc. reflexivity. }
  assert (j < length l)%nat by (unfold l; rewrite app_length, repeat_length; lia).
  rewrite interp_nth by assumption. unfold interp_at.
  assert (EN : nth j l NaN = NaN) by (rewrite E, app_nth2; rewrite repeat_length; [|lia]; rewrite Nat.sub_diag; reflexivity).
  change (n_nan : xr) with NaN. rewrite EN. cbn [n_isnan Num_xr xisnan].
  assert (EF : firstn j l = repeat NaN j).
  { rewrite E, firstn_app, repeat_length, Nat.sub_diag, firstn_O, app_nil_r. apply firstn_all2. rewrite repeat_length. lia. }
  assert (ES : skipn (S j) l = repeat NaN (gap - S j) ++ Fin b :: post).
  { rewrite E, skipn_app, repeat_length, skipn_all2 by (rewrite repeat_length; lia). replace (S j - j)%nat with 1%nat by lia. reflexivity. }
  rewrite EF, ES, scan_none by (apply Forall_rev, repeat_nan). rewrite scan_run by (try apply repeat_nan; reflexivity).
  rewrite repeat_length. replace (1 + Z.of_nat (gap - S j)) with (Z.of_nat gap - Z.of_nat j) by lia. rewrite preserved_leading. destruct (backward_ok _ _ _); reflexivity.
Qed.
Lemma interp_trailing dir limit pre a gap j : (j < gap)%nat ->
  nth (length pre + 1 + j) (interpolate_linear dir limit (pre ++ Fin a :: repeat NaN gap)) NaN
  = if forward_ok dir limit (Z.of_nat j + 1) then Fin a else NaN.
Proof.
  intro Hj. set (l := pre ++ Fin a :: repeat NaN gap). set (i := (length pre + 1 + j)%nat).
  assert (E : l = (pre ++ Fin a :: repeat NaN j) ++ NaN :: repeat NaN (gap - S j)).
  { unfold l. rewrite <- app_assoc. cbn [app]. do 2 f_equal. replace gap with (j + S (gap - S j))%nat at 1 by lia. rewrite repeat_app. reflexivity. }
  assert (LP : length (pre ++ Fin a :: repeat NaN j) = i) by (rewrite app_length; cbn [length]; rewrite repeat_length; unfold i; lia).
  assert (i < length l)%nat by (unfold l, i; rewrite app_length; cbn [length]; rewrite repeat_length; lia).
  rewrite interp_nth by assumption. unfold interp_at.
  assert (EN : nth i l NaN = NaN) by (rewrite E, app_nth2 by lia; rewrite LP, Nat.sub_diag; reflexivity).
  change (n_nan : xr) with NaN. rewrite EN. cbn [n_isnan Num_xr xisnan].
  assert (EF : firstn i l = pre ++ Fin a :: repeat NaN j).
  { rewrite E, firstn_app, LP, Nat.sub_diag, firstn_O, app_nil_r. apply firstn_all2. lia. }
  assert (ES : skipn (S i) l = repeat NaN (gap - S j)).
  { rewrite E, skipn_app, skipn_all2 by lia. rewrite LP. replace (S i - i)%nat with 1%nat by lia. reflexivity. }
  assert (ER : rev (pre ++ Fin a :: repeat NaN j) = repeat NaN j ++ Fin a :: rev pre).
  { rewrite rev_app_distr. cbn [rev]. rewrite <- app_assoc. cbn [app]. f_equal.
    clear. induction j as [|j IH]; [reflexivity|]. cbn [repeat rev]. rewrite IH. 
    clear. induction j as [|j IH]; [reflexivity|]. cbn. f_equal. exact IH. }
  rewrite EF, ES, ER, scan_run by (try apply repeat_nan; reflexivity). rewrite scan_none by apply repeat_nan.
  rewrite repeat_length. replace (1 + Z.of_nat j) with (Z.of_nat j + 1) by lia. rewrite preserved_trailing. destruct (forward_ok _ _ _); reflexivity.
Qed.
