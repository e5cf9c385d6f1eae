(** C57, C58: statistics objects and their JSON form. *)
From Coq Require Import String ZArith Reals List Bool Lia Lra.
From Verif Require Import Py Num Series Frame CascadeModel PrecipModel UtilModel2 HumModel RadModel StationModel
  JsonModel SpecJson JsonProofs.
Import ListNotations.
Open Scope string_scope.
Open Scope Z_scope.
Open Scope list_scope.

(** * C57: cascade statistics *)
Lemma eq2_iff {T} {N : Num T} (f g : nat -> nat -> T) :
  eq2 f g = true <-> forall b t, (b < 2)%nat -> (t < 4)%nat -> (f b t =? g b t)%num = true.
Proof.
  unfold eq2. rewrite forallb_forall. split.
  - intros H b t HB HT. specialize (H b). rewrite forallb_forall in H. apply H; apply in_seq; lia.
  - intros H b HB. apply forallb_forall. intros t HT. apply in_seq in HB, HT. apply H; lia.
Qed.
Lemma eq3_iff {T} {N : Num T} (f g : nat -> nat -> nat -> T) :
  eq3 f g = true <-> forall k b t, (k < 7)%nat -> (b < 2)%nat -> (t < 4)%nat -> (f k b t =? g k b t)%num = true.
Proof.
  unfold eq3. rewrite forallb_forall. split.
  - intros H k b t HK. assert (E : eq2 (f k) (g k) = true) by (apply H, in_seq; lia). apply eq2_iff; exact E.
  - intros H k HK. apply in_seq in HK. apply eq2_iff. intros; apply H; lia.
Qed.
Lemma eq1_iff {T} {N : Num T} (a b : list T) : eq1 a b = true <-> Forall2 (fun x y => (x =? y)%num = true) a b.
Proof.
  revert b. induction a as [|x a IH]; intros [|y b]; cbn; split; intro H; try discriminate; try constructor; try (inversion H; fail).
  - apply andb_true_iff in H. apply H.
  - apply andb_true_iff in H. apply IH, H.
  - inversion H; subst. apply andb_true_iff. split; [assumption|]. apply IH. assumption.
Qed.
(** == compares every cell, every threshold and the percentile; != is its negation. For every number type. *)
Theorem C57_equality : forall (T : Type) (N : Num T) (s o : casc T),
  (casc_eqb s o = true <->
     (forall b t, (b < 2)%nat -> (t < 4)%nat ->
        (p01 s b t =? p01 o b t)%num = true /\ (p10 s b t =? p10 o b t)%num = true /\ (pxx s b t =? pxx o b t)%num = true /\
        forall k, (k < 7)%nat -> (wxx s k b t =? wxx o k b t)%num = true) /\
     Forall2 (fun x y => (x =? y)%num = true) (threshold s) (threshold o) /\ (percentile s =? percentile o)%num = true) /\
  casc_neb s o = negb (casc_eqb s o).
Proof.
  intros T N s o. split; [|reflexivity]. unfold casc_eqb. rewrite !andb_true_iff, !eq2_iff, eq3_iff, eq1_iff. split.
  - intros (((((H1 & H2) & H3) & H4) & H5) & H6). split; [|split; assumption]. intros b t HB HT. repeat split; auto.
  - intros (H & H5 & H6). repeat split; try assumption; try (intros b t HB HT; apply (H b t HB HT)).
    intros k b t HK HB HT. apply (H b t HB HT), HK.
Qed.
Definition no_nan_casc (c : casc xr) : Prop :=
  (forall b t, (b < 2)%nat -> (t < 4)%nat -> p01 c b t <> NaN /\ p10 c b t <> NaN /\ pxx c b t <> NaN /\ forall k, (k < 7)%nat -> wxx c k b t <> NaN) /\
  Forall (fun x => x <> NaN) (threshold c) /\ percentile c <> NaN.
Lemma xeqb_refl x : xeqb x x = true <-> x <> NaN.
Proof. destruct x as [r| | |]; cbn; split; intro H; try reflexivity; try discriminate; try congruence. destruct (Reqb_spec r r); congruence. Qed.
Lemma Forall2_refl_iff {A} (P : A -> A -> Prop) l : Forall2 P l l <-> Forall (fun x => P x x) l.
Proof. induction l as [|a l IH]; split; intro H; constructor; inversion H; subst; tauto. Qed.
(** an object equals itself exactly when it contains no NaN *)
Theorem C57_reflexive : forall c : casc xr, casc_eqb c c = true <-> no_nan_casc c.
Proof.
  intro c. rewrite (proj1 (C57_equality xr _ c c)). unfold no_nan_casc. change n_eqb with xeqb. rewrite Forall2_refl_iff, xeqb_refl.
  assert (F : Forall (fun x => xeqb x x = true) (threshold c) <-> Forall (fun x => x <> NaN) (threshold c)).
  { split; apply Forall_impl; intro x; apply xeqb_refl. }
  rewrite F. split; intros (H & H1 & H2); (split; [|split; assumption]); intros b t HB HT; destruct (H b t HB HT) as (A & B & C & D);
    repeat split; try apply xeqb_refl; auto; intros k HK; apply xeqb_refl; auto.
Qed.
(** storing as a dictionary in JSON and reading back: every cell, threshold and the percentile are the same,
    and the two objects are == unless there is a NaN *)
Theorem C57_roundtrip : forall c : casc xr, exists j c', load (enc_casc c) = Ok j /\ casc_of j = Ok c' /\
  same_casc c c' /\ (casc_eqb c c' = true <-> no_nan_casc c).
Proof.
  intro c. exists (casc_tree c), (casc_back c). split; [apply load_casc|]. split; [apply casc_of_tree|]. split; [apply casc_back_same|].
  rewrite <- C57_reflexive. rewrite !(proj1 (C57_equality xr _ _ _)). destruct (casc_back_same c) as (H & H1 & H2).
  rewrite H1, H2. split; intros (G & G1 & G2); (split; [|split; assumption]); intros b t HB HT;
    destruct (H b t HB HT) as (A & B & C & D); destruct (G b t HB HT) as (A' & B' & C' & D').
  - rewrite A in A'. rewrite B in B'. rewrite C in C'. repeat split; try assumption. intros k HK. specialize (D' k HK). rewrite D in D' by exact HK. exact D'.
  - rewrite A, B, C. repeat split; try assumption. intros k HK. rewrite D by exact HK. auto.
Qed.
(** rectangular tables of the wrong size are refused, ragged ones and missing entries as well *)
Definition rectangular (dims : list nat) (j : json) : Prop := np_shape j = Some dims.
Lemma same_dims_iff a b : same_dims a b = true <-> a = b.
Proof.
  revert b. induction a as [|x a IH]; intros [|y b]; cbn; split; intro H; try discriminate; try reflexivity.
  - apply andb_true_iff in H as [H1 H2]. apply Nat.eqb_eq in H1. apply IH in H2. congruence.
  - injection H as -> ->. rewrite Nat.eqb_refl. cbn. apply IH. reflexivity.
Qed.
Theorem C57_wrong_shape : forall d a b x w t p sa sb sx sw st,
  assoc "p01" d = Some a -> assoc "p10" d = Some b -> assoc "pxx" d = Some x -> assoc "wxx" d = Some w ->
  assoc "threshold" d = Some t -> assoc "percentile" d = Some p ->
  rectangular sa a -> rectangular sb b -> rectangular sx x -> rectangular sw w -> rectangular st t ->
  json_decoder d =
    if (if list_eq_dec Nat.eq_dec sa [2; 4]%nat then true else false) && (if list_eq_dec Nat.eq_dec sb [2; 4]%nat then true else false) &&
       (if list_eq_dec Nat.eq_dec sx [2; 4]%nat then true else false) && (if list_eq_dec Nat.eq_dec sw [7; 2; 4]%nat then true else false)
    then Ok (JCasc a b x w t p) else Err AssertionError.
Proof.
  intros d a b x w t p sa sb sx sw st Ea Eb Ex Ew Et Ep Ra Rb Rx Rw Rt. unfold json_decoder, has_key. rewrite Ea, Ex. cbn [andb].
  unfold from_dict, item. rewrite Ea, Eb, Ex, Ew, Et, Ep. cbn [bind]. unfold np_array, rectangular in *. rewrite Ra, Rb, Rx, Rw, Rt. cbn [bind].
  unfold has_shape. rewrite Ra, Rb, Rx, Rw.
  assert (E : forall s s', same_dims s s' = if list_eq_dec Nat.eq_dec s' s then true else false).
  { intros s s'. destruct (list_eq_dec Nat.eq_dec s' s) as [->|N]; [apply same_dims_iff; reflexivity|].
    destruct (same_dims s s') eqn:E; [|reflexivity]. apply same_dims_iff in E. congruence. }
  rewrite !E. reflexivity.
Qed.
Theorem C57_incomplete : forall d, has_key "p01" d = true -> has_key "pxx" d = true ->
  (Forall (fun p => np_shape (snd p) <> None) d -> has_key "p10" d = false \/ has_key "wxx" d = false \/ has_key "threshold" d = false \/ has_key "percentile" d = false ->
     json_decoder d = Err KeyError) /\
  (forall a, assoc "p01" d = Some a -> np_shape a = None -> json_decoder d = Err ValueError).
Proof.
  intros d H1 H2. unfold json_decoder. rewrite H1, H2. cbn [andb]. split.
  - intros F H. unfold from_dict, item, has_key in *.
    assert (R : forall k j, assoc k d = Some j -> np_array j = Ok j).
    { intros k j E. unfold np_array. assert (I : In (k, j) d).
      { clear -E. induction d as [|[k' j'] d IH]; [discriminate|]. cbn in E. destruct (String.eqb_spec k' k) as [->|]; [injection E as ->; left; reflexivity|right; auto]. }
      rewrite Forall_forall in F. specialize (F _ I). cbn in F. destruct (np_shape j); congruence. }
    destruct (assoc "p01" d) eqn:E1; [|discriminate]. destruct (assoc "pxx" d) eqn:E2; [|discriminate]. cbn [bind]. rewrite (R _ _ E1). cbn [bind].
    destruct (assoc "p10" d) eqn:E3; [|reflexivity]. cbn [bind]. rewrite (R _ _ E3). cbn [bind]. rewrite (R _ _ E2). cbn [bind].
    destruct (assoc "wxx" d) eqn:E4; [|reflexivity]. cbn [bind]. rewrite (R _ _ E4). cbn [bind].
    destruct (assoc "threshold" d) eqn:E5; [|reflexivity]. cbn [bind]. rewrite (R _ _ E5). cbn [bind].
    destruct (assoc "percentile" d) eqn:E6; [|reflexivity]. exfalso. intuition discriminate.
  - intros a E R. unfold from_dict, item. rewrite E. cbn [bind]. unfold np_array. rewrite R. reflexivity.
Qed.

(** * C58: the whole statistics object *)
Lemma part_delta o : (forall d, o = Some d -> NoDup (map fst d) /\ (d = [] \/ exists t r, In (t, Fin r) d /\ (r <= 31536000)%R)) ->
  exists j o', enc_opt enc_column o = Ok j /\ plain j /\
    opt_of (fun j => let* s := read_series j in Ok (sort_index s)) j = Ok o' /\ opt_rel (same_table written) o o'.
Proof.
  destruct o as [d|]; intro H; [|exists JNull, None; repeat split].
  destruct (H d eq_refl) as [D X]. exists (snd (raw_col ("", vmap enc_cell d))), (Some (vmap tab (sort_index d))).
  cbn [enc_opt]. rewrite (enc_column_ok d D). split; [reflexivity|]. split; [apply plain_raw, plain_vmap|]. split.
  - cbn [opt_of raw_col snd]. pose proof (read_series_enc d X) as R. cbn [raw_col snd] in R. rewrite R. cbn [bind]. rewrite sort_vmap. reflexivity.
  - cbn. apply same_table_sort; [apply written_tab|exact D].
Qed.
Lemma part_course o : (forall c, o = Some c -> NoDup (map fst c) /\ Forall (fun p => NoDup (map fst (snd p))) c /\ a_frame c /\ all_months c) ->
  exists j o', enc_opt enc_course o = Ok j /\ plain j /\ opt_of read_course j = Ok o' /\ opt_rel same_course o o'.
Proof.
  destruct o as [c|]; intro H; [|exists JNull, None; repeat split].
  destruct (H c eq_refl) as (D & F & A & M). destruct (course_ok c D F A M) as (c' & E & R).
  exists (JObj (map raw_col (raw_course c))), (Some c'). cbn [enc_opt]. rewrite (enc_course_ok c D F). split; [reflexivity|].
  split; [apply plain_course|]. split; [cbn [opt_of]; rewrite E; reflexivity|exact R].
Qed.
Lemma part_pairs n1 n2 t : n1 <> n2 -> n1 <> "p01" -> n2 <> "p01" -> NoDup (map fst t) ->
  exists j t', enc_pairs n1 n2 t = Ok j /\ plain j /\ read_pairs n1 n2 j = Ok t' /\ same_table same_pair t t'.
Proof.
  intros N N1 N2 D. eexists _, _. split; [apply enc_pairs_ok, D|]. split; [apply plain_pairs; assumption|].
  split; [apply read_pairs_enc; assumption|]. apply same_table_sort; [|exact D]. intro a. split; apply written_tab.
Qed.
Lemma part_mhp o : (forall t, o = Some t -> length t <> 1%nat) ->
  let j := match o with Some t => enc_mhp t | None => JNull end in
  exists o', plain j /\ opt_of read_mhp j = Ok o' /\ opt_rel (Forall2 (fun p p' => fst p' = fst p /\ written (snd p) (snd p'))) o o'.
Proof.
  destruct o as [t|]; intros H j; subst j; [|exists None; repeat split].
  exists (Some (map (fun p => (fst p, tab (snd p))) t)). split; [apply plain_mhp|]. split.
  - change (opt_of read_mhp (enc_mhp t)) with (let* a := read_mhp (enc_mhp t) in Ok (Some a)). rewrite read_mhp_enc.
    destruct (Nat.eqb_spec (length t) 1) as [E|_]; [destruct (H t eq_refl E)|reflexivity].
  - cbn. clear H. induction t as [|p t IH]; constructor; [split; [reflexivity|apply written_tab]|exact IH].
Qed.
Lemma part_num o : exists j, enc_opt enc_num o = Ok j /\ plain j /\ opt_of num_of j = Ok o.
Proof. destruct o as [x|]; [exists (JNum x)|exists JNull]; repeat split. Qed.
Lemma part_months o : let j := match o with Some l => JArr (map enc_months l) | None => JNull end in
  plain j /\ opt_of (fun j => let* l := list_of j in mapM months_of l) j = Ok o.
Proof.
  destruct o as [l|]; cbv zeta; [|split; reflexivity]. split.
  - apply plain_arr, Forall_map, Forall_forall. intros m _. apply plain_months.
  - cbn [opt_of list_of bind]. rewrite mapM_map. rewrite mapM_all with (g := fun m => m); [cbn; rewrite map_id; reflexivity|].
    intros [m|] _; [|reflexivity]. unfold months_of, enc_months. cbn [opt_of list_of bind]. rewrite mapM_map.
    rewrite mapM_all with (g := fun z => z) by reflexivity. cbn. rewrite map_id. reflexivity.
Qed.
Lemma part_casc o : (forall l, o = Some l -> Forall (fun a => a <> COther) l) ->
  exists j j' o', enc_opt (fun l => let* l := mapM enc_arg l in Ok (JArr l)) o = Ok j /\ load j = Ok j' /\
    opt_of (fun j => let* l := list_of j in mapM arg_of l) j' = Ok o' /\ opt_rel (Forall2 same_arg) o o'.
Proof.
  destruct o as [l|]; intro H; [|exists JNull, JNull, None; repeat split].
  destruct (enc_args l (H l eq_refl)) as (js & E1 & E2). destruct (args_back l (H l eq_refl)) as (l' & E3 & R).
  exists (JArr js), (JArr (map arg_tree l)), (Some l'). cbn [enc_opt]. rewrite E1. cbn [bind]. split; [reflexivity|].
  split; [rewrite load_arr, E2; reflexivity|]. split; [cbn [opt_of list_of bind]; rewrite E3; reflexivity|exact R].
Qed.
(** loading the whole file *)
Lemma load_file delta course a b sh months stats stats' a0 a1 kr mhp ang bc gc :
  plain delta -> plain course -> plain a -> plain b -> plain sh -> plain months -> load stats = Ok stats' -> plain a0 -> plain a1 ->
  plain kr -> plain mhp -> plain ang -> plain bc -> plain gc ->
  load (JObj [("temp", JObj [("max_delta", delta); ("mean_course", course)]);
            ("wind", JObj [("a", a); ("b", b); ("t_shift", sh)]);
            ("precip", JObj [("months", months); ("stats", stats)]);
            ("hum", JObj [("a0", a0); ("a1", a1); ("kr", kr); ("month_hour_precip_mean", mhp)]);
            ("glob", JObj [("angstroem", ang); ("bristcamp", bc); ("mean_course", gc)])]) =
  Ok (JObj [("temp", JObj [("max_delta", delta); ("mean_course", course)]);
            ("wind", JObj [("a", a); ("b", b); ("t_shift", sh)]);
            ("precip", JObj [("months", months); ("stats", stats')]);
            ("hum", JObj [("a0", a0); ("a1", a1); ("kr", kr); ("month_hour_precip_mean", mhp)]);
            ("glob", JObj [("angstroem", ang); ("bristcamp", bc); ("mean_course", gc)])]).
Proof.
  intros P1 P2 P3 P4 P5 P6 P7 P8 P9 P10 P11 P12 P13 P14. unfold plain in *.
  rewrite load_obj. cbn [mapM fst snd]. rewrite !load_obj. cbn [mapM fst snd].
  rewrite P1, P2, P3, P4, P5, P6, P7, P8, P9, P10, P11, P12, P13, P14. reflexivity.
Qed.

Theorem C58_roundtrip : forall s, storable s ->
  exists j s', to_json s = Ok j /\ from_json j = Ok s' /\ stored s s'.
Proof.
  intros s [O1 O2 O3 [O4 O4'] O5 O6].
  destruct (part_delta _ O1) as (jd & d' & E1 & P1 & F1 & R1).
  destruct (part_course _ O2) as (jt & t' & E2 & P2 & F2 & R2).
  destruct (part_course _ O3) as (jg & g' & E3 & P3 & F3 & R3).
  destruct (part_pairs "a" "b" _ ltac:(discriminate) ltac:(discriminate) ltac:(discriminate) O4) as (ja & ang' & E4 & P4 & F4 & R4).
  destruct (part_pairs "a" "c" _ ltac:(discriminate) ltac:(discriminate) ltac:(discriminate) O4') as (jb & bc' & E5 & P5 & F5 & R5).
  destruct (part_mhp _ O5) as (m' & P6 & F6 & R6).
  destruct (part_casc _ O6) as (jc & jc' & c' & E7 & P7 & F7 & R7).
  destruct (part_num (q_wind_a s)) as (jwa & E8 & P8 & F8).
  destruct (part_num (q_wind_b s)) as (jwb & E9 & P9 & F9).
  destruct (part_num (q_wind_shift s)) as (jws & E10 & P10 & F10).
  destruct (part_num (q_a0 s)) as (ja0 & E11 & P11 & F11).
  destruct (part_num (q_a1 s)) as (ja1 & E12 & P12 & F12).
  destruct (part_months (q_months s)) as (P13 & F13).
  set (jm := match q_months s with Some l => JArr (map enc_months l) | None => JNull end) in *.
  set (jh := match q_mhp s with Some t => enc_mhp t | None => JNull end) in *.
  set (jk := match q_kr s with Some z => JInt z | None => JNull end).
  assert (PK : plain jk /\ opt_of int_of jk = Ok (q_kr s)) by (subst jk; destruct (q_kr s); split; reflexivity). destruct PK as [P14 F14].
  eexists _, _. split; [|split].
  - unfold to_json. rewrite E1, E2, E3, E4, E5, E7, E8, E9, E10, E11, E12. cbn [bind]. fold jm jh jk. reflexivity.
  - unfold from_json. rewrite (load_file _ _ _ _ _ _ _ jc') by assumption. cbn [bind obj_of item assoc String.eqb Ascii.eqb Bool.eqb].
    unfold entry. cbn [bind obj_of item assoc String.eqb Ascii.eqb Bool.eqb].
    rewrite F1. cbn [bind]. rewrite F2. cbn [bind]. rewrite F6. cbn [bind]. rewrite F4. cbn [bind]. rewrite F5. cbn [bind]. rewrite F3. cbn [bind].
    rewrite F11. cbn [bind]. rewrite F12. cbn [bind]. rewrite F14. cbn [bind]. rewrite F13. cbn [bind]. rewrite F7. cbn [bind].
    rewrite F8. cbn [bind]. rewrite F9. cbn [bind]. rewrite F10. cbn [bind]. reflexivity.
  - constructor; cbn; auto.
Qed.

(** ** which objects can be written at all *)
Record writable (s : sstats) : Prop := {
  w_delta : forall d, q_delta s = Some d -> NoDup (map fst d);
  w_tcourse : forall c, q_tcourse s = Some c -> NoDup (map fst c) /\ Forall (fun p => NoDup (map fst (snd p))) c;
  w_gcourse : forall c, g_course (q_glob s) = Some c -> NoDup (map fst c) /\ Forall (fun p => NoDup (map fst (snd p))) c;
  w_tables : NoDup (map fst (g_angstroem (q_glob s))) /\ NoDup (map fst (g_bristcamp (q_glob s)));
  w_casc : forall l, q_casc s = Some l -> Forall (fun a => a <> COther) l }.
Lemma enc_column_inv s j : enc_column s = Ok j -> NoDup (map fst s).
Proof. unfold enc_column. destruct (has_dup _) eqn:E; [discriminate|]. intros _. apply has_dup_NoDup, E. Qed.
Lemma enc_course_inv c j : enc_course c = Ok j -> NoDup (map fst c) /\ Forall (fun p => NoDup (map fst (snd p))) c.
Proof.
  unfold enc_course. destruct (has_dup _) eqn:E; [discriminate|]. intro H. split; [apply has_dup_NoDup, E|].
  apply bind_Ok in H as (cols & H & _). clear E. revert cols H. induction c as [|p c IH]; intros cols H; constructor.
  - cbn in H. apply bind_Ok in H as (x & H & _). apply bind_Ok in H as (y & H & _). eapply enc_column_inv, H.
  - cbn in H. apply bind_Ok in H as (x & _ & H). apply bind_Ok in H as (y & H & _). eapply IH, H.
Qed.
Lemma enc_pairs_inv n1 n2 t j : enc_pairs n1 n2 t = Ok j -> NoDup (map fst t).
Proof. intro H. apply bind_Ok in H as (x & H & _). apply enc_column_inv in H. rewrite map_map in H. exact H. Qed.
Lemma enc_args_inv l js : mapM enc_arg l = Ok js -> Forall (fun a => a <> COther) l.
Proof.
  revert js. induction l as [|a l IH]; intros js H; constructor.
  - intros ->. discriminate.
  - cbn in H. apply bind_Ok in H as (x & _ & H). apply bind_Ok in H as (y & H & _). eapply IH, H.
Qed.
(** everything the writer and the loader do, for writable objects *)
Lemma file_form s : writable s -> exists jd jt ja jb jg jc jc' wa wb ws a0 a1,
  enc_opt enc_column (q_delta s) = Ok jd /\ enc_opt enc_course (q_tcourse s) = Ok jt /\ enc_opt enc_course (g_course (q_glob s)) = Ok jg /\
  enc_pairs "a" "b" (g_angstroem (q_glob s)) = Ok ja /\ enc_pairs "a" "c" (g_bristcamp (q_glob s)) = Ok jb /\
  to_json s = Ok (JObj [("temp", JObj [("max_delta", jd); ("mean_course", jt)]); ("wind", JObj [("a", wa); ("b", wb); ("t_shift", ws)]);
            ("precip", JObj [("months", match q_months s with Some l => JArr (map enc_months l) | None => JNull end); ("stats", jc)]);
            ("hum", JObj [("a0", a0); ("a1", a1); ("kr", match q_kr s with Some z => JInt z | None => JNull end);
                          ("month_hour_precip_mean", match q_mhp s with Some t => enc_mhp t | None => JNull end)]);
            ("glob", JObj [("angstroem", ja); ("bristcamp", jb); ("mean_course", jg)])]) /\
  load (JObj [("temp", JObj [("max_delta", jd); ("mean_course", jt)]); ("wind", JObj [("a", wa); ("b", wb); ("t_shift", ws)]);
            ("precip", JObj [("months", match q_months s with Some l => JArr (map enc_months l) | None => JNull end); ("stats", jc)]);
            ("hum", JObj [("a0", a0); ("a1", a1); ("kr", match q_kr s with Some z => JInt z | None => JNull end);
                          ("month_hour_precip_mean", match q_mhp s with Some t => enc_mhp t | None => JNull end)]);
            ("glob", JObj [("angstroem", ja); ("bristcamp", jb); ("mean_course", jg)])]) =
  Ok (JObj [("temp", JObj [("max_delta", jd); ("mean_course", jt)]); ("wind", JObj [("a", wa); ("b", wb); ("t_shift", ws)]);
            ("precip", JObj [("months", match q_months s with Some l => JArr (map enc_months l) | None => JNull end); ("stats", jc')]);
            ("hum", JObj [("a0", a0); ("a1", a1); ("kr", match q_kr s with Some z => JInt z | None => JNull end);
                          ("month_hour_precip_mean", match q_mhp s with Some t => enc_mhp t | None => JNull end)]);
            ("glob", JObj [("angstroem", ja); ("bristcamp", jb); ("mean_course", jg)])]).
Proof.
  intros [W1 W2 W3 [W4 W4'] W5].
  assert (D : exists jd, enc_opt enc_column (q_delta s) = Ok jd /\ plain jd).
  { destruct (q_delta s) as [d|]; [|exists JNull; split; reflexivity]. eexists. split; [apply enc_column_ok; auto|]. apply plain_raw, plain_vmap. }
  destruct D as (jd & E1 & P1).
  assert (C : forall o, (forall c, o = Some c -> NoDup (map fst c) /\ Forall (fun p => NoDup (map fst (snd p))) c) ->
    exists jt, enc_opt enc_course o = Ok jt /\ plain jt).
  { intros [c|] H; [|exists JNull; split; reflexivity]. destruct (H c eq_refl) as [D F]. eexists. split; [apply enc_course_ok; auto|apply plain_course]. }
  destruct (C _ W2) as (jt & E2 & P2). destruct (C _ W3) as (jg & E3 & P3).
  destruct (part_pairs "a" "b" _ ltac:(discriminate) ltac:(discriminate) ltac:(discriminate) W4) as (ja & ang' & E4 & P4 & _).
  destruct (part_pairs "a" "c" _ ltac:(discriminate) ltac:(discriminate) ltac:(discriminate) W4') as (jb & bc' & E5 & P5 & _).
  destruct (part_casc _ W5) as (jc & jc' & c' & E7 & P7 & _).
  destruct (part_num (q_wind_a s)) as (jwa & E8 & P8 & F8).
  destruct (part_num (q_wind_b s)) as (jwb & E9 & P9 & F9).
  destruct (part_num (q_wind_shift s)) as (jws & E10 & P10 & F10).
  destruct (part_num (q_a0 s)) as (ja0 & E11 & P11 & F11).
  destruct (part_num (q_a1 s)) as (ja1 & E12 & P12 & F12).
  destruct (part_months (q_months s)) as (P13 & _).
  exists jd, jt, ja, jb, jg, jc, jc', jwa, jwb, jws, ja0, ja1. repeat split; auto.
  - unfold to_json. rewrite E1, E2, E3, E4, E5, E7, E8, E9, E10, E11, E12. cbn [bind]. reflexivity.
  - apply load_file; auto; [destruct (q_kr s); reflexivity|destruct (q_mhp s); [apply plain_mhp|reflexivity]].
Qed.
Theorem C58_writable : forall s, (exists j, to_json s = Ok j) <-> writable s.
Proof.
  intro s. split.
  - intros (j & H). unfold to_json in H.
    apply bind_Ok in H as (jd & H1 & H). apply bind_Ok in H as (jt & H2 & H). do 3 apply bind_Ok in H as (? & _ & H).
    apply bind_Ok in H as (jc & H3 & H). do 2 apply bind_Ok in H as (? & _ & H).
    apply bind_Ok in H as (ja & H4 & H). apply bind_Ok in H as (jb & H5 & H). apply bind_Ok in H as (jg & H6 & H).
    constructor.
    + intros d E. rewrite E in H1. eapply enc_column_inv, H1.
    + intros c E. rewrite E in H2. eapply enc_course_inv, H2.
    + intros c E. rewrite E in H6. eapply enc_course_inv, H6.
    + split; eapply enc_pairs_inv; eassumption.
    + intros l E. rewrite E in H3. cbn in H3. apply bind_Ok in H3 as (js & H3 & _). eapply enc_args_inv, H3.
  - intro W. destruct (file_form s W) as (jd & jt & ja & jb & jg & jc & jc' & wa & wb & ws & a0 & a1 & _ & _ & _ & _ & _ & E & _). eauto.
Qed.
Lemma storable_writable s : storable s -> writable s.
Proof. intros [O1 O2 O3 O4 O5 O6]. constructor; auto; [intros d E; apply (O1 d E)|intros c E; destruct (O2 c E) as (? & ? & _); auto|intros c E; destruct (O3 c E) as (? & ? & _); auto]. Qed.

(** ** the files from_json cannot read *)
Lemma delta_reads o j : enc_opt enc_column o = Ok j -> exists r, opt_of (fun j => let* s := read_series j in Ok (sort_index s)) j = Ok r.
Proof.
  destruct o as [d|]; cbn [enc_opt]; intro E; [|injection E as <-; eexists; reflexivity].
  unfold enc_column in E. destruct (has_dup _); [discriminate|]. injection E as <-. cbn [opt_of]. unfold read_series. cbn [obj_of bind]. rewrite mapM_map. cbn [fst snd].
  rewrite mapM_all with (g := fun p => (fst p, tab (snd p))); [cbn; eauto|]. intros p _. rewrite label_key. cbn [bind]. rewrite cell_enc. reflexivity.
Qed.
(** a temperature course without one of the twelve months *)
Theorem C58_temperature_month_missing : forall s j c m, to_json s = Ok j -> q_tcourse s = Some c -> a_frame c ->
  1 <= m <= 12 -> ~ In m (map fst c) -> from_json j = Err KeyError.
Proof.
  intros s j c m H EC A HM N. assert (W : writable s) by (apply C58_writable; eauto).
  destruct (file_form s W) as (jd & jt & ja & jb & jg & jc & jc' & wa & wb & ws & a0 & a1 & E1 & E2 & _ & _ & _ & E & L).
  rewrite E in H. injection H as <-. unfold from_json. rewrite L. cbn [bind obj_of item assoc String.eqb Ascii.eqb Bool.eqb].
  unfold entry. cbn [bind obj_of item assoc String.eqb Ascii.eqb Bool.eqb].
  destruct (delta_reads _ _ E1) as (r & ->). cbn [bind]. rewrite EC in E2. cbn [enc_opt] in E2.
  destruct (w_tcourse s W c EC) as [D F]. rewrite (enc_course_ok c D F) in E2. injection E2 as <-. cbn [opt_of].
  rewrite (course_missing c m D F A HM N). reflexivity.
Qed.
(** a humidity table with a single row *)
Theorem C58_humidity_single_row : forall s j t, to_json s = Ok j -> q_mhp s = Some t -> length t = 1%nat ->
  (forall c, q_tcourse s = Some c -> a_frame c /\ all_months c) -> from_json j = Err AttributeError.
Proof.
  intros s j t H ET LT HC. assert (W : writable s) by (apply C58_writable; eauto).
  destruct (file_form s W) as (jd & jt & ja & jb & jg & jc & jc' & wa & wb & ws & a0 & a1 & E1 & E2 & _ & _ & _ & E & L).
  rewrite E in H. injection H as <-. unfold from_json. rewrite L. cbn [bind obj_of item assoc String.eqb Ascii.eqb Bool.eqb].
  unfold entry. cbn [bind obj_of item assoc String.eqb Ascii.eqb Bool.eqb].
  destruct (delta_reads _ _ E1) as (r & ->). cbn [bind].
  destruct (part_course (q_tcourse s)) as (j' & o' & E2' & _ & R & _).
  { intros c EC. destruct (w_tcourse s W c EC). destruct (HC c EC). auto. }
  rewrite E2 in E2'. injection E2' as <-. rewrite R. cbn [bind]. rewrite ET.
  change (opt_of read_mhp (enc_mhp t)) with (let* a := read_mhp (enc_mhp t) in Ok (Some a)). rewrite read_mhp_enc, LT. reflexivity.
Qed.
(** a radiation course without one of the twelve months *)
Theorem C58_radiation_month_missing : forall s j c m, to_json s = Ok j -> g_course (q_glob s) = Some c -> a_frame c ->
  (forall c, q_tcourse s = Some c -> a_frame c /\ all_months c) -> (forall t, q_mhp s = Some t -> length t <> 1%nat) ->
  1 <= m <= 12 -> ~ In m (map fst c) -> from_json j = Err KeyError.
Proof.
  intros s j c m H EC A HC HT HM N. assert (W : writable s) by (apply C58_writable; eauto).
  destruct (file_form s W) as (jd & jt & ja & jb & jg & jc & jc' & wa & wb & ws & a0 & a1 & E1 & E2 & E3 & E4 & E5 & E & L).
  rewrite E in H. injection H as <-. unfold from_json. rewrite L. cbn [bind obj_of item assoc String.eqb Ascii.eqb Bool.eqb].
  unfold entry. cbn [bind obj_of item assoc String.eqb Ascii.eqb Bool.eqb].
  destruct (delta_reads _ _ E1) as (r & ->). cbn [bind].
  destruct (part_course (q_tcourse s)) as (j' & o' & E2' & _ & R & _).
  { intros c' EC'. destruct (w_tcourse s W c' EC'). destruct (HC c' EC'). auto. }
  rewrite E2 in E2'. injection E2' as <-. rewrite R. cbn [bind].
  destruct (part_mhp (q_mhp s) HT) as (m' & _ & F6 & _). rewrite F6. cbn [bind].
  destruct (w_tables s W) as [W4 W4'].
  destruct (part_pairs "a" "b" _ ltac:(discriminate) ltac:(discriminate) ltac:(discriminate) W4) as (ja2 & ang' & E4' & _ & F4 & _).
  destruct (part_pairs "a" "c" _ ltac:(discriminate) ltac:(discriminate) ltac:(discriminate) W4') as (jb2 & bc' & E5' & _ & F5 & _).
  rewrite E4 in E4'. injection E4' as <-. rewrite E5 in E5'. injection E5' as <-. rewrite F4. cbn [bind]. rewrite F5. cbn [bind].
  rewrite EC in E3. cbn [enc_opt] in E3. destruct (w_gcourse s W c EC) as [D F]. rewrite (enc_course_ok c D F) in E3. injection E3 as <-. cbn [opt_of].
  rewrite (course_missing c m D F A HM N). reflexivity.
Qed.

(** ** a second round trip changes nothing any more *)
Lemma ascending_same_set l l' : ascending l -> ascending l' -> (forall k, In k l <-> In k l') -> l = l'.
Proof.
  intros A A' H. assert (E : map (fun k => (k, tt)) l = map (fun k => (k, tt)) l').
  { apply ascending_ext; rewrite ?map_map; cbn [fst]; rewrite ?map_id; auto.
    intro k. rewrite !(lookup_pick (fun _ => tt)). destruct (mem k l) eqn:M; destruct (mem k l') eqn:M'; try reflexivity; exfalso.
    - apply mem_In, H, mem_In in M. congruence.
    - apply mem_In, H, mem_In in M'. congruence. }
  apply (f_equal (map fst)) in E. rewrite !map_map in E. cbn [fst] in E. rewrite !map_id in E. exact E.
Qed.
Lemma table_labels {A} (P : A -> A -> Prop) s s' k : same_table P s s' -> (In k (map fst s) <-> In k (map fst s')).
Proof.
  intros [_ H]. specialize (H k). pose proof (lookup_None_iff k s) as L. pose proof (lookup_None_iff k s') as L'.
  destruct (lookup k s), (lookup k s'); cbn in H; try contradiction; try tauto.
  split; intros _; [destruct (in_dec Z.eq_dec k (map fst s')) as [I|I]|destruct (in_dec Z.eq_dec k (map fst s)) as [I|I]]; auto; exfalso; [apply L' in I|apply L in I]; congruence.
Qed.
Lemma table_twice {A} (P : A -> A -> Prop) s s' s'' : (forall x y z, P x y -> P y z -> z = y) ->
  same_table P s s' -> same_table P s' s'' -> s'' = s'.
Proof.
  intros T [A1 H1] [A2 H2]. apply ascending_ext; auto. intro k. specialize (H1 k). specialize (H2 k).
  destruct (lookup k s), (lookup k s'), (lookup k s''); cbn in *; try contradiction; try reflexivity. f_equal. eauto.
Qed.
Lemma course_twice c c' c'' : same_course c c' -> same_course c' c'' -> c'' = c'.
Proof.
  intros [K1 H1] [K2 H2]. apply ascending_ext; rewrite ?K1, ?K2; try apply seq_ascending.
  intro m. destruct (Z_le_dec 1 m) as [L|L]; [destruct (Z_le_dec m 12) as [L'|L']|].
  - specialize (H1 m (conj L L')). specialize (H2 m (conj L L')).
    destruct (lookup m c), (lookup m c'), (lookup m c''); cbn in *; try contradiction; try reflexivity.
    f_equal. eapply (table_twice written); [apply written_twice| |]; eassumption.
  - assert (forall d : course xr, map fst d = map Z.of_nat (seq 1 12) -> lookup m d = None).
    { intros d E. apply lookup_None_iff. rewrite E. intro I. apply (twelve_In m) in I. lia. }
    rewrite !H; auto.
  - assert (forall d : course xr, map fst d = map Z.of_nat (seq 1 12) -> lookup m d = None).
    { intros d E. apply lookup_None_iff. rewrite E. intro I. apply (twelve_In m) in I. lia. }
    rewrite !H; auto.
Qed.
Lemma course_storable c c' : a_frame c -> all_months c -> same_course c c' ->
  NoDup (map fst c') /\ Forall (fun p => NoDup (map fst (snd p))) c' /\ a_frame c' /\ all_months c'.
Proof.
  intros A M [K H]. assert (ND : NoDup (map fst c')) by (rewrite K; apply ascending_NoDup, seq_ascending).
  assert (AM : all_months c') by (intros m HM; rewrite K; apply (twelve_In m), HM).
  assert (Q : forall m col', In (m, col') c' -> exists col, In (m, col) c /\ same_table written col col').
  { intros m col' HI. assert (HM : 1 <= m <= 12). { apply twelve_In. unfold twelve. rewrite <- K. apply (in_map fst) in HI. exact HI. }
    specialize (H m HM).
    assert (EL : lookup m c' = Some col').
    { clear -HI ND. induction c' as [|[t v] c' IH]; [contradiction|]. cbn in *. inversion ND; subst. destruct HI as [E|HI].
      - injection E as -> ->. rewrite Z.eqb_refl. reflexivity.
      - destruct (Z.eqb_spec t m) as [->|]; [|auto]. exfalso. apply (in_map fst) in HI. contradiction. }
    rewrite EL in H. destruct (lookup m c) as [col|] eqn:E; [|contradiction]. exists col. split; [apply lookup_Some_In, E|exact H]. }
  repeat split; auto.
  - apply Forall_forall. intros [m col'] HI. cbn. destruct (Q m col' HI) as (col & _ & [AS _]). apply ascending_NoDup, AS.
  - intros m1 m2 col1 col2 I1 I2. destruct (Q m1 col1 I1) as (d1 & J1 & S1). destruct (Q m2 col2 I2) as (d2 & J2 & S2).
    apply ascending_same_set; [apply S1|apply S2|]. intro k. rewrite <- (table_labels _ _ _ k S1), <- (table_labels _ _ _ k S2).
    rewrite (A m1 m2 d1 d2 J1 J2). tauto.
Qed.
Lemma Forall2_len {A B} (P : A -> B -> Prop) l l' : Forall2 P l l' -> length l = length l'.
Proof. induction 1; cbn; congruence. Qed.
Lemma stored_storable s s' : storable s -> stored s s' -> storable s'.
Proof.
  intros [O1 O2 O3 [O4 O4'] O5 O6] [_ _ R1 _ R2 R3 R4 R5 R6 R7 _]. constructor.
  - intros d' E. rewrite E in R3. destruct (q_delta s) as [d|]; [|contradiction]. cbn in R3. destruct (O1 d eq_refl) as [D H]. destruct R3 as [A R3].
    split; [apply ascending_NoDup, A|]. destruct H as [->|(t & r & HI & HR)].
    + left. destruct d' as [|[t v] d']; [reflexivity|]. specialize (R3 t). cbn in R3. rewrite Z.eqb_refl in R3. contradiction.
    + right. assert (EL : lookup t d = Some (Fin r)).
      { clear -HI D. induction d as [|[u v] d IH]; [contradiction|]. cbn in *. inversion D; subst. destruct HI as [E|HI].
        - injection E as -> ->. rewrite Z.eqb_refl. reflexivity.
        - destruct (Z.eqb_spec u t) as [->|]; [|auto]. exfalso. apply (in_map fst) in HI. contradiction. }
      specialize (R3 t). rewrite EL in R3. destruct (lookup t d') as [y|] eqn:EY; [|contradiction]. cbn in R3. destruct R3 as (k & -> & B).
      exists t, (IZR k / 10000000000)%R. split; [apply lookup_Some_In, EY|].
      assert (IZR k < 315360000000000001)%R by (revert B; unfold Rabs; destruct (Rcase_abs _); lra).
      apply lt_IZR in H. assert (k <= 315360000000000000) by lia. apply IZR_le in H0. lra.
  - intros c' E. rewrite E in R4. destruct (q_tcourse s) as [c|]; [|contradiction]. destruct (O2 c eq_refl) as (_ & _ & A & M). eapply course_storable; eauto.
  - intros c' E. rewrite E in R5. destruct (g_course (q_glob s)) as [c|]; [|contradiction]. destruct (O3 c eq_refl) as (_ & _ & A & M). eapply course_storable; eauto.
  - split; apply ascending_NoDup; [apply R6|apply R7].
  - intros t' E. rewrite E in R2. destruct (q_mhp s) as [t|]; [|contradiction]. cbn in R2. apply Forall2_len in R2. rewrite <- R2. apply O5. reflexivity.
  - intros l' E. rewrite E in R1. destruct (q_casc s) as [l|]; [|contradiction]. cbn in R1. clear -R1.
    induction R1 as [|a a' l l' S _ IH]; constructor; auto. destruct a, a'; cbn in S; try contradiction; discriminate.
Qed.
Theorem C58_second_trip : forall s, storable s -> exists j1 s1 j2 s2,
  to_json s = Ok j1 /\ from_json j1 = Ok s1 /\ to_json s1 = Ok j2 /\ from_json j2 = Ok s2 /\
  q_delta s2 = q_delta s1 /\ q_tcourse s2 = q_tcourse s1 /\ q_mhp s2 = q_mhp s1 /\ q_glob s2 = q_glob s1 /\
  q_months s2 = q_months s1 /\ opt_rel (Forall2 same_arg) (q_casc s1) (q_casc s2) /\
  q_wind_a s2 = q_wind_a s1 /\ q_wind_b s2 = q_wind_b s1 /\ q_wind_shift s2 = q_wind_shift s1 /\
  q_a0 s2 = q_a0 s1 /\ q_a1 s2 = q_a1 s1 /\ q_kr s2 = q_kr s1.
Proof.
  intros s O. destruct (C58_roundtrip s O) as (j1 & s1 & E1 & E2 & R1). pose proof (stored_storable s s1 O R1) as O1.
  destruct (C58_roundtrip s1 O1) as (j2 & s2 & E3 & E4 & R2). exists j1, s1, j2, s2. do 4 (split; [assumption|]).
  destruct R1 as [A1 A2 A3 A4 A5 A6 A7 A8 A9 A10 A11], R2 as [B1 B2 B3 B4 B5 B6 B7 B8 B9 B10 B11].
  assert (PT : forall x y z, same_pair x y -> same_pair y z -> z = y).
  { intros [x1 x2] [y1 y2] [z1 z2] [H1 H2] [H3 H4]. cbn in *. f_equal; eapply written_twice; eauto. }
  split; [|split; [|split; [|split; [|split; [|split]]]]]; try tauto.
  - destruct (q_delta s), (q_delta s1), (q_delta s2); cbn in *; try contradiction; try reflexivity. f_equal. eapply (table_twice written); [apply written_twice| |]; eassumption.
  - destruct (q_tcourse s), (q_tcourse s1), (q_tcourse s2); cbn in *; try contradiction; try reflexivity. f_equal. eapply course_twice; eauto.
  - destruct (q_mhp s) as [t|], (q_mhp s1) as [t1|], (q_mhp s2) as [t2|]; cbn in *; try contradiction; try reflexivity. f_equal. clear -A5 B5. revert t2 B5.
    induction A5 as [|[k x] [k1 y] t t1 [H1 H2] _ IH]; intros t2 B5; inversion B5 as [|? [k2 z] ? ? [H3 H4]]; subst; [reflexivity|].
    cbn in *. subst. f_equal; [|auto]. f_equal. eapply written_twice; eauto.
  - destruct (q_glob s) as [c a b], (q_glob s1) as [c1 a1 b1], (q_glob s2) as [c2 a2 b2]. cbn in *. f_equal.
    + destruct c, c1, c2; cbn in *; try contradiction; try reflexivity. f_equal. eapply course_twice; eauto.
    + eapply (table_twice same_pair); eassumption.
    + eapply (table_twice same_pair); eassumption.
Qed.

(** ** the hypotheses are met *)
Definition ex_course : course xr := map (fun m => (m, [(1, Fin (1 / 3)); (0, NaN); (2, Fin (IZR m))])) twelve.
Definition ex_stored : sstats :=
  {| q_lon := Some (Fin 8); q_lat := Some (Fin 50); q_tz := Some (Fin 1); q_data := None;
     q_wind_a := Some (Fin (1 / 7)); q_wind_b := Some (Fin 1); q_wind_shift := None;
     q_months := Some [Some [12; 1; 2]; None]; q_casc := Some [COne casc_init; CList [fill_with_sample_data casc_init]];
     q_a0 := Some (Fin 3); q_a1 := None; q_kr := Some 12; q_mhp := Some [((1, 0, true), Fin 80); ((1, 0, false), NaN)];
     q_delta := Some [(2, Fin (1 / 3)); (1, NaN)]; q_tcourse := Some ex_course;
     q_glob := {| g_course := Some ex_course; g_angstroem := g_angstroem init_glob; g_bristcamp := g_bristcamp init_glob |} |}.
Lemma ex_course_ok : NoDup (map fst ex_course) /\ Forall (fun p => NoDup (map fst (snd p))) ex_course /\ a_frame ex_course /\ all_months ex_course.
Proof.
  assert (K : map fst ex_course = twelve) by reflexivity. split; [rewrite K; apply ascending_NoDup, seq_ascending|]. split; [|split].
  - unfold ex_course. apply Forall_map, Forall_forall. intros m _. cbn. repeat constructor; cbn; intuition discriminate.
  - intros m m' col col' H H'. unfold ex_course in *. apply in_map_iff in H as (? & E & _). apply in_map_iff in H' as (? & E' & _).
    injection E as _ <-. injection E' as _ <-. reflexivity.
  - intros m HM. rewrite K. apply twelve_In, HM.
Qed.
Example C58_met : storable ex_stored.
Proof.
  constructor; cbn [ex_stored q_delta q_tcourse q_glob g_course g_angstroem g_bristcamp q_mhp q_casc].
  - intros d E. injection E as <-. split; [cbn; repeat constructor; cbn; intuition discriminate|]. right. exists 2, (1 / 3)%R. split; [left; reflexivity|lra].
  - intros c E. injection E as <-. apply ex_course_ok.
  - intros c E. injection E as <-. apply ex_course_ok.
  - split; (match goal with |- NoDup ?l => replace l with twelve by reflexivity end; apply ascending_NoDup, seq_ascending).
  - intros t E. injection E as <-. discriminate.
  - intros l E. injection E as <-. repeat constructor; discriminate.
Qed.
(** eleven months, one humidity row, two rows for one month *)
Definition ex_eleven : sstats :=
  {| q_lon := None; q_lat := None; q_tz := None; q_data := None; q_wind_a := None; q_wind_b := None; q_wind_shift := None;
     q_months := None; q_casc := None; q_a0 := None; q_a1 := None; q_kr := None; q_mhp := Some [((1, 0, true), Fin 80)];
     q_delta := None; q_tcourse := Some (tl ex_course); q_glob := init_glob |}.
Example C58_met_eleven : (exists j, to_json ex_eleven = Ok j) /\ a_frame (tl ex_course) /\ ~ In 1 (map fst (tl ex_course)).
Proof.
  destruct ex_course_ok as (D & F & A & M). split; [|split].
  - apply C58_writable. constructor; cbn [ex_eleven q_delta q_tcourse q_glob g_course init_glob g_angstroem g_bristcamp q_casc]; try discriminate.
    + intros c E. injection E as <-. split; [inversion D; assumption|inversion F; assumption].
    + split; (match goal with |- NoDup ?l => replace l with twelve by reflexivity end; apply ascending_NoDup, seq_ascending).
  - intros m m' col col' H H'. apply (A m m' col col'); unfold ex_course in *; right; assumption.
  - cbn. intuition discriminate.
Qed.
Example C57_met : no_nan_casc casc_init /\ ~ no_nan_casc (casc_mul casc_init NaN) /\
  json_decoder [("p01", JArr []); ("pxx", JArr []); ("p10", JArr []); ("wxx", JArr []); ("threshold", JArr []); ("percentile", JInt 50)] = Err AssertionError /\
  json_decoder [("p01", JArr [JArr []; JNull]); ("pxx", JArr [])] = Err ValueError /\ json_decoder [("p01", JArr []); ("pxx", JArr [])] = Err KeyError.
Proof.
  split; [|split; [|repeat split]].
  - split; [|split]; cbn [casc_init p01 p10 pxx wxx threshold percentile].
    + intros b t _ _. repeat split; discriminate.
    + rewrite !lit_xr by discriminate. repeat (apply Forall_cons; [discriminate|]). apply Forall_nil.
    + discriminate.
  - intros [H _]. destruct (H 0%nat 0%nat) as (N & _); [lia|lia|]. apply N. reflexivity.
Qed.

Print Assumptions C57_equality.
Print Assumptions C57_reflexive.
Print Assumptions C57_roundtrip.
Print Assumptions C57_wrong_shape.
Print Assumptions C57_incomplete.
Print Assumptions C58_roundtrip.
Print Assumptions C58_writable.
Print Assumptions C58_temperature_month_missing.
Print Assumptions C58_humidity_single_row.
Print Assumptions C58_radiation_month_missing.
Print Assumptions C58_second_trip.
