(** Lemmas about the JSON model. *)
From Coq Require Import String ZArith Reals List Bool Lia Lra DecimalString DecimalZ DecimalPos.
From Flocq Require Import Core.
From Verif Require Import Py Num Series Frame CascadeModel PrecipModel UtilModel2 HumModel RadModel StationModel
  JsonModel SpecJson.
Import ListNotations.
Open Scope string_scope.
Open Scope Z_scope.
Open Scope list_scope.

(** ** labels *)
Lemma key_inv_key z : key_inv (key z) = Some z.
Proof.
  unfold key_inv, key.
  assert (H : Z.to_int z <> Decimal.Pos Decimal.Nil /\ Z.to_int z <> Decimal.Neg Decimal.Nil).
  { destruct z; cbn; split; try discriminate; intro E; injection E as E; exact (Unsigned.to_uint_nonnil _ E). }
  rewrite NilZero.isi by apply H. cbn. rewrite of_to. reflexivity.
Qed.
Lemma label_key z : label_of (key z) = Ok z.
Proof. unfold label_of. rewrite key_inv_key. reflexivity. Qed.
Lemma key_p01 z : key z <> "p01".
Proof. intro E. pose proof (key_inv_key z) as H. rewrite E in H. discriminate. Qed.

(** ** numbers in tables *)
Definition tab (x : xr) : xr := match x with Fin r => Fin (ten_decimals r) | _ => NaN end.
Lemma cell_enc x : cell_of (enc_cell x) = Ok (tab x).
Proof. destruct x; reflexivity. Qed.
Lemma written_tab x : written x (tab x).
Proof.
  destruct x as [r| | |]; try reflexivity. cbn. unfold ten_decimals. eexists. split; [reflexivity|].
  set (k := ZnearestE _). pose proof (Znearest_half (fun x => negb (Z.even x)) (r * 10000000000)) as H. fold k in H.
  replace (r - IZR k / 10000000000)%R with ((r * 10000000000 - IZR k) * (/ 10000000000))%R by field.
  rewrite Rabs_mult, (Rabs_pos_eq (/ 10000000000)) by lra.
  apply Rmult_le_compat_r with (r := (/ 10000000000)%R) in H; lra.
Qed.
(** what is written was written before *)
Lemma written_twice x y z : written x y -> written y z -> z = y.
Proof.
  destruct x as [r| | |]; cbn; intros H1 H2; try (subst y; exact H2).
  destruct H1 as (k & -> & _). destruct H2 as (k' & -> & H).
  replace (IZR k / 10000000000 - IZR k' / 10000000000)%R with ((IZR k - IZR k') * / 10000000000)%R in H by field.
  rewrite Rabs_mult, (Rabs_pos_eq (/ 10000000000)) in H by lra. rewrite <- minus_IZR, <- abs_IZR in H.
  assert (B : (IZR (Z.abs (k - k')) < 1)%R) by lra. apply lt_IZR in B. do 3 f_equal. lia.
Qed.

(** ** lists *)
Lemma mapM_all {A B} (f : A -> res B) (g : A -> B) l : (forall a, In a l -> f a = Ok (g a)) -> mapM f l = Ok (map g l).
Proof.
  induction l as [|a l IH]; intro H; [reflexivity|]. cbn. rewrite (H a) by (left; reflexivity). cbn.
  rewrite IH by (intros; apply H; right; assumption). reflexivity.
Qed.
Lemma mapM_map {A B C} (f : B -> res C) (g : A -> B) l : mapM f (map g l) = mapM (fun a => f (g a)) l.
Proof. induction l as [|a l IH]; [reflexivity|]. cbn. destruct (f (g a)); [|reflexivity]. cbn. rewrite IH. reflexivity. Qed.
Lemma has_dup_NoDup l : has_dup l = false <-> NoDup l.
Proof.
  induction l as [|a l IH]; cbn; [split; constructor|]. rewrite orb_false_iff, IH. split.
  - intros [M D]. constructor; [|exact D]. intro H. unfold mem in M.
    assert (existsb (Z.eqb a) l = true) by (apply existsb_exists; exists a; split; [exact H|apply Z.eqb_refl]). congruence.
  - intro H. inversion H as [|? ? N D]; subst. split; [|exact D].
    destruct (mem a l) eqn:E; [|reflexivity]. exfalso. apply N. unfold mem in E.
    apply existsb_exists in E as (b & HB & EB). apply Z.eqb_eq in EB. subst b. exact HB.
Qed.

(** ** sorting by label *)
Definition vmap {A B} (f : A -> B) (l : list (Z * A)) : list (Z * B) := map (fun p => (fst p, f (snd p))) l.
Lemma vmap_fst {A B} (f : A -> B) l : map fst (vmap f l) = map fst l.
Proof. unfold vmap. rewrite map_map. reflexivity. Qed.
Lemma insert_vmap {A B} (f : A -> B) p l : insert (fst p, f (snd p)) (vmap f l) = vmap f (insert p l).
Proof.
  induction l as [|q r IH]; [reflexivity|]. cbn. destruct (fst p <=? fst q); cbn; [reflexivity|]. f_equal. exact IH.
Qed.
Lemma sort_vmap {A B} (f : A -> B) l : sort_index (vmap f l) = vmap f (sort_index l).
Proof.
  induction l as [|p l IH]; [reflexivity|].
  change (insert (fst p, f (snd p)) (sort_index (vmap f l)) = vmap f (insert p (sort_index l))). rewrite IH. apply insert_vmap.
Qed.
Lemma lookup_vmap {A B} (f : A -> B) k l : lookup k (vmap f l) = option_map f (lookup k l).
Proof. induction l as [|[t v] l IH]; [reflexivity|]. cbn. destruct (t =? k); [reflexivity|exact IH]. Qed.
Lemma lookup_insert {A} k (p : Z * A) l : lookup k (insert p l) = if fst p =? k then Some (snd p) else lookup k l.
Proof.
  induction l as [|q r IH]; cbn; [destruct p; reflexivity|]. destruct (Z.leb_spec (fst p) (fst q)) as [L|L].
  - destruct p; cbn. reflexivity.
  - destruct q as [t v]. cbn in *. rewrite IH. destruct (Z.eqb_spec t k) as [->|N]; [|reflexivity].
    destruct (Z.eqb_spec (fst p) k); [lia|reflexivity].
Qed.
Lemma lookup_sort {A} k (l : list (Z * A)) : lookup k (sort_index l) = lookup k l.
Proof. induction l as [|[t v] l IH]; [reflexivity|]. cbn [sort_index fold_right]. fold (sort_index l). rewrite lookup_insert, IH. reflexivity. Qed.
Lemma insert_In {A} (p q : Z * A) l : In q (insert p l) <-> q = p \/ In q l.
Proof.
  induction l as [|r l IH]; cbn; [intuition congruence|]. destruct (fst p <=? fst r); cbn; [intuition congruence|]. rewrite IH. intuition congruence.
Qed.
Lemma sort_In {A} (q : Z * A) l : In q (sort_index l) <-> In q l.
Proof. induction l as [|p l IH]; [reflexivity|]. cbn [sort_index fold_right]. fold (sort_index l). rewrite insert_In, IH. cbn. intuition congruence. Qed.
Lemma ascending_cons a l : ascending (a :: l) <-> (forall b, In b l -> a < b) /\ ascending l.
Proof.
  revert a. induction l as [|c l IH]; intro a; cbn [ascending]; [split; [intros _; split; [intros ? []|exact I]|auto]|].
  split.
  - intros [H1 H2]. split; [|exact H2]. apply (proj1 (IH c)) in H2 as [H2 _]. intros b [<-|HB]; [exact H1|]. specialize (H2 b HB). lia.
  - intros [H1 H2]. split; [apply H1; left; reflexivity|exact H2].
Qed.
Lemma insert_ascending {A} (p : Z * A) l : ascending (map fst l) -> ~ In (fst p) (map fst l) -> ascending (map fst (insert p l)).
Proof.
  induction l as [|q r IH]; intros H N; [exact I|]. cbn [insert]. destruct (Z.leb_spec (fst p) (fst q)) as [L|L].
  - cbn [map]. apply ascending_cons. split; [|exact H]. cbn [map] in H. apply ascending_cons in H as [H _].
    cbn in N. intros b [<-|HB]; [lia|]. specialize (H b HB). lia.
  - cbn [map] in H |- *. apply ascending_cons in H as [H1 H2]. apply ascending_cons. split.
    + intros b HB. apply in_map_iff in HB as (x & <- & HX). apply insert_In in HX as [->|HX]; [exact L|]. apply H1, in_map, HX.
    + apply IH; [exact H2|]. intro HI. apply N. right. exact HI.
Qed.
Lemma sort_ascending {A} (l : list (Z * A)) : NoDup (map fst l) -> ascending (map fst (sort_index l)).
Proof.
  induction l as [|p l IH]; intro H; [exact I|]. cbn [sort_index fold_right]. fold (sort_index l). inversion H as [|? ? N D]; subst.
  apply insert_ascending; [auto|]. intro HI. apply N. apply in_map_iff in HI as (x & E & HX). apply (proj1 (sort_In _ _)) in HX. rewrite <- E. apply in_map, HX.
Qed.
Lemma sort_sorted {A} (l : list (Z * A)) : ascending (map fst l) -> sort_index l = l.
Proof.
  induction l as [|p l IH]; intro H; [reflexivity|]. cbn [sort_index fold_right]. fold (sort_index l). cbn [map] in H. apply ascending_cons in H as [H1 H2].
  rewrite (IH H2). destruct l as [|q l]; [reflexivity|]. cbn [insert].
  destruct (Z.leb_spec (fst p) (fst q)) as [L|L]; [reflexivity|]. specialize (H1 (fst q) (or_introl eq_refl)). lia.
Qed.
(** ascending tables with the same look-ups are the same *)
Lemma lookup_None_iff {A} k (l : list (Z * A)) : lookup k l = None <-> ~ In k (map fst l).
Proof.
  induction l as [|[t v] l IH]; cbn; [tauto|]. destruct (Z.eqb_spec t k) as [->|N]; [split; [discriminate|tauto]|]. rewrite IH. tauto.
Qed.
Lemma ascending_ext {A} (l l' : list (Z * A)) : ascending (map fst l) -> ascending (map fst l') ->
  (forall k, lookup k l = lookup k l') -> l = l'.
Proof.
  revert l'. induction l as [|[t v] l IH]; intros [|[t' v'] l'] H H' E.
  - reflexivity.
  - specialize (E t'). cbn in E. rewrite Z.eqb_refl in E. discriminate.
  - specialize (E t). cbn in E. rewrite Z.eqb_refl in E. discriminate.
  - cbn [map fst] in H, H'. apply ascending_cons in H as [H1 H2]. apply ascending_cons in H' as [H1' H2'].
    assert (T : t = t').
    { pose proof (E t) as E1. pose proof (E t') as E2. cbn in E1, E2. rewrite Z.eqb_refl in E1, E2.
      destruct (Z.eqb_spec t' t) as [->|N1]; [reflexivity|]. destruct (Z.eqb_spec t t') as [->|N2]; [reflexivity|].
      assert (I1 : In t (map fst l')). { destruct (in_dec Z.eq_dec t (map fst l')) as [I|I]; [exact I|]. apply lookup_None_iff in I. congruence. }
      assert (I2 : In t' (map fst l)). { destruct (in_dec Z.eq_dec t' (map fst l)) as [I|I]; [exact I|]. apply lookup_None_iff in I. congruence. }
      specialize (H1 _ I2). specialize (H1' _ I1). lia. }
    subst t'. pose proof (E t) as E1. cbn in E1. rewrite Z.eqb_refl in E1. injection E1 as ->. f_equal.
    apply IH; auto. intro k. specialize (E k). cbn in E. destruct (Z.eqb_spec t k) as [->|N]; [|exact E].
    assert (N1 : ~ In k (map fst l)) by (intro I; specialize (H1 _ I); lia).
    assert (N2 : ~ In k (map fst l')) by (intro I; specialize (H1' _ I); lia).
    apply lookup_None_iff in N1, N2. congruence.
Qed.

(** ** reading tables *)
Lemma mem_In t l : mem t l = true <-> In t l.
Proof. unfold mem. rewrite existsb_exists. split; [intros (x & H & E); apply Z.eqb_eq in E; subst; exact H|intro H; exists t; split; [exact H|apply Z.eqb_refl]]. Qed.
Lemma union_self l l' : (forall t, In t l' -> In t l) -> union l l' = l.
Proof.
  induction l' as [|t r IH]; intro H; [reflexivity|]. cbn.
  assert (M : mem t l = true) by (apply mem_In, H; left; reflexivity). rewrite M. apply IH. intros u HU. apply H. right. exact HU.
Qed.
Lemma union_fresh l' : forall l, NoDup (l ++ l') -> union l l' = l ++ l'.
Proof.
  induction l' as [|t r IH]; intros l H; [symmetry; apply app_nil_r|]. cbn.
  assert (M : mem t l = false).
  { destruct (mem t l) eqn:E; [|reflexivity]. apply mem_In in E. apply NoDup_remove_2 in H. exfalso. apply H, in_or_app. auto. }
  rewrite M, IH, <- app_assoc; [reflexivity|]. rewrite <- app_assoc. exact H.
Qed.
Definition raw_col (c : string * list (Z * json)) : string * json := (fst c, JObj (map (fun q => (key (fst q), snd q)) (snd c))).
Lemma lookup_pairs {A} (l : list (Z * A)) (d : A) : NoDup (map fst l) ->
  map (fun t => (t, match lookup t l with Some v => v | None => d end)) (map fst l) = l.
Proof.
  intro D. rewrite map_map. rewrite <- (map_id l) at 2. apply map_ext_in. intros [t v] HI. cbn. f_equal.
  induction l as [|[t' v'] l IH]; [contradiction|]. cbn [lookup]. cbn in D. inversion D as [|? ? N D']; subst.
  destruct HI as [E|HI]; [injection E as -> ->; rewrite Z.eqb_refl; reflexivity|].
  destruct (Z.eqb_spec t' t) as [->|NE]; [exfalso; apply N; apply (in_map fst) in HI; exact HI|]. apply IH; assumption.
Qed.
Lemma read_frame_raw cols L : NoDup L -> Forall (fun c => map fst (snd c) = L) cols ->
  read_frame (JObj (map raw_col cols)) = Ok (map (fun c => (fst c, sort_index (snd c))) cols).
Proof.
  intros D F. unfold read_frame. cbn [obj_of bind]. rewrite mapM_map.
  rewrite mapM_all with (g := fun c => c).
  2:{ intros c HC. cbn [raw_col fst snd obj_of bind]. rewrite mapM_map.
      rewrite mapM_all with (g := fun q => q); [|intros q HQ; cbn [fst snd]; rewrite label_key; cbn; destruct q; reflexivity].
      cbn [bind]. rewrite map_id. destruct c; reflexivity. }
  cbn [bind]. rewrite map_id. f_equal. apply map_ext_in. intros c HC. f_equal. f_equal.
  assert (LL : fold_left (fun acc c => union acc (map fst (snd c))) cols [] = L).
  { assert (G : forall cols acc, Forall (fun c => map fst (snd c) = L) cols -> (acc = [] /\ cols <> [] \/ acc = L) ->
              fold_left (fun acc (c : string * list (Z * json)) => union acc (map fst (snd c))) cols acc = L).
    { clear cols F c HC. induction cols as [|c cols IH]; intros acc F H; [destruct H as [[_ []]|H]; [reflexivity|exact H]|].
      cbn [fold_left]. inversion F as [|? ? F1 F2]; subst. apply IH; [exact F2|]. right.
      destruct H as [[-> _]| ->]; [apply (union_fresh (map fst (snd c)) []); exact D|apply union_self; auto]. }
    apply G; [exact F|]. left. split; [reflexivity|]. intros ->. contradiction. }
  rewrite LL. rewrite Forall_forall in F. rewrite <- (F c HC). apply lookup_pairs. rewrite (F c HC). exact D.
Qed.
Lemma num_column_enc (l : list (Z * xr)) : num_column (sort_index (vmap enc_cell l)) = Ok (vmap tab (sort_index l)).
Proof.
  rewrite sort_vmap. unfold num_column, vmap. rewrite mapM_map. apply mapM_all. intros p HP. cbn [fst snd]. rewrite cell_enc. reflexivity.
Qed.
Lemma enc_column_ok s : NoDup (map fst s) -> enc_column s = Ok (snd (raw_col ("", vmap enc_cell s))).
Proof.
  intro D. unfold enc_column. apply has_dup_NoDup in D. rewrite D. cbn. unfold vmap. rewrite map_map. reflexivity.
Qed.
Lemma same_table_sort {A} (P : A -> A -> Prop) (f : A -> A) l : (forall a, P a (f a)) -> NoDup (map fst l) ->
  same_table P l (vmap f (sort_index l)).
Proof.
  intros H D. split; [rewrite vmap_fst; apply sort_ascending, D|]. intro k. rewrite lookup_vmap, lookup_sort.
  destruct (lookup k l); cbn; auto.
Qed.

(** ** series *)
Lemma ten_le r : (r <= 31536000 -> ten_decimals r <= 31536000)%R.
Proof.
  intro H. unfold ten_decimals. assert (B : (ZnearestE (r * 10000000000) <= 315360000000000000)%Z).
  { rewrite <- (Znearest_imp (fun x => negb (Z.even x)) (IZR 315360000000000000) 315360000000000000).
    - apply (@Zrnd_le ZnearestE); [typeclasses eauto|lra].
    - replace (_ - _)%R with 0%R by ring. rewrite Rabs_R0. lra. }
  apply IZR_le in B. apply Rmult_le_reg_r with 10000000000%R; [lra|]. field_simplify; lra.
Qed.
Lemma read_series_enc s : (s = [] \/ exists t r, In (t, Fin r) s /\ (r <= 31536000)%R) ->
  read_series (snd (raw_col ("", vmap enc_cell s))) = Ok (vmap tab s).
Proof.
  intro H. unfold read_series. cbn [raw_col snd obj_of bind]. rewrite mapM_map.
  rewrite mapM_all with (g := fun p => (fst p, val match snd p with JNull => JNum NaN | j => j end)).
  2:{ intros p HP. unfold vmap in HP. apply in_map_iff in HP as (q & <- & _). cbn [fst snd]. rewrite label_key. cbn [bind]. rewrite cell_enc. cbn.
      destruct (snd q); reflexivity. }
  cbn [bind]. assert (E : map (fun p : Z * json => (fst p, val match snd p with JNull => JNum NaN | j => j end)) (vmap enc_cell s) = vmap tab s).
  { unfold vmap. rewrite map_map. apply map_ext. intro q. cbn. f_equal. destruct (snd q); reflexivity. }
  rewrite E. destruct H as [->|(t & r & HI & HR)]; [reflexivity|].
  destruct (forallb _ (vmap tab s)) eqn:EF; [|reflexivity]. exfalso. rewrite forallb_forall in EF.
  assert (HI' : In (t, Fin (ten_decimals r)) (vmap tab s)) by (unfold vmap; apply in_map_iff; exists (t, Fin r); auto).
  specialize (EF _ HI'). cbn in EF. destruct (Rltb_spec 31536000 (ten_decimals r)); [|discriminate]. pose proof (ten_le r HR). lra.
Qed.

(** ** courses *)
Definition raw_course (c : course xr) : list (string * list (Z * json)) := map (fun p => (key (fst p), vmap enc_cell (snd p))) c.
Lemma enc_course_ok c : NoDup (map fst c) -> Forall (fun p => NoDup (map fst (snd p))) c ->
  enc_course c = Ok (JObj (map raw_col (raw_course c))).
Proof.
  intros D F. unfold enc_course. apply has_dup_NoDup in D. rewrite D. unfold raw_course. rewrite map_map.
  rewrite mapM_all with (g := fun p => raw_col (key (fst p), vmap enc_cell (snd p))); [reflexivity|].
  intros p HP. rewrite Forall_forall in F. rewrite (enc_column_ok _ (F p HP)). reflexivity.
Qed.
Definition clean_course (c : course xr) : course xr := map (fun p => (fst p, vmap tab (sort_index (snd p)))) c.
Lemma read_course_enc c : NoDup (map fst c) -> Forall (fun p => NoDup (map fst (snd p))) c -> a_frame c ->
  read_course (JObj (map raw_col (raw_course c))) = select_months (clean_course c).
Proof.
  intros D F A. unfold read_course.
  destruct c as [|[m0 col0] c0] eqn:EC; [reflexivity|]. rewrite <- EC in *.
  assert (I0 : In (m0, col0) c) by (rewrite EC; left; reflexivity).
  rewrite (read_frame_raw (raw_course c) (map fst col0)).
  - cbn [bind]. unfold raw_course. rewrite map_map. cbn [fst snd]. rewrite mapM_map.
    rewrite mapM_all with (g := fun p => (fst p, vmap tab (sort_index (snd p)))); [reflexivity|].
    intros p HP. cbn [fst snd]. rewrite label_key. cbn [bind]. rewrite num_column_enc. reflexivity.
  - rewrite Forall_forall in F. exact (F _ I0).
  - unfold raw_course. apply Forall_map. apply Forall_forall. intros [m col] HP. cbn [fst snd]. rewrite vmap_fst. exact (A m m0 col col0 HP I0).
Qed.
Lemma lookup_map_snd {A B} (f : A -> B) k (c : list (Z * A)) : lookup k (map (fun p => (fst p, f (snd p))) c) = option_map f (lookup k c).
Proof. apply (lookup_vmap f). Qed.
Lemma lookup_Some_In {A} k (l : list (Z * A)) v : lookup k l = Some v -> In (k, v) l.
Proof. induction l as [|[t u] l IH]; cbn; [discriminate|]. destruct (Z.eqb_spec t k) as [->|]; [intro E; injection E as ->; auto|auto]. Qed.
Lemma twelve_In m : In m twelve <-> 1 <= m <= 12.
Proof.
  unfold twelve. rewrite in_map_iff. split.
  - intros (i & <- & H). apply in_seq in H. lia.
  - intro H. exists (Z.to_nat m). split; [lia|]. apply in_seq. lia.
Qed.
Lemma lookup_pick {A} (g : Z -> A) k l : lookup k (map (fun m => (m, g m)) l) = if mem k l then Some (g k) else None.
Proof.
  induction l as [|m l IH]; [reflexivity|]. cbn. rewrite (Z.eqb_sym k m). destruct (Z.eqb_spec m k) as [->|]; [reflexivity|exact IH].
Qed.
Lemma select_full c : all_months c -> exists c', select_months c = Ok c' /\ map fst c' = twelve /\ forall m, 1 <= m <= 12 -> lookup m c' = lookup m c.
Proof.
  intro A. unfold select_months.
  exists (map (fun m => (m, match lookup m c with Some v => v | None => [] end)) twelve). split; [|split].
  - apply mapM_all. intros m HM. apply twelve_In in HM. specialize (A m HM). destruct (lookup m c) eqn:E; [reflexivity|].
    apply lookup_None_iff in E. contradiction.
  - rewrite map_map. cbn [fst]. apply map_id.
  - intros m HM. rewrite lookup_pick. assert (M : mem m twelve = true) by (apply mem_In, twelve_In, HM). rewrite M.
    specialize (A m HM). destruct (lookup m c) eqn:E; [reflexivity|]. apply lookup_None_iff in E. contradiction.
Qed.
Lemma clean_fst c : map fst (clean_course c) = map fst c.
Proof. unfold clean_course. rewrite map_map. reflexivity. Qed.
Lemma course_ok c : NoDup (map fst c) -> Forall (fun p => NoDup (map fst (snd p))) c -> a_frame c -> all_months c ->
  exists c', read_course (JObj (map raw_col (raw_course c))) = Ok c' /\ same_course c c'.
Proof.
  intros D F A M. rewrite (read_course_enc c D F A).
  destruct (select_full (clean_course c)) as (c' & E & K & LK). { unfold all_months. rewrite clean_fst. exact M. }
  exists c'. split; [exact E|]. split; [exact K|]. intros m HM. rewrite LK by exact HM. unfold clean_course.
  rewrite (lookup_map_snd (fun v => vmap tab (sort_index v))). destruct (lookup m c) as [col|] eqn:EL; cbn; [|exact I].
  apply same_table_sort; [apply written_tab|]. apply lookup_Some_In in EL. rewrite Forall_forall in F. exact (F _ EL).
Qed.
Lemma mapM_err {A B} (f : A -> res B) e l : (forall a, In a l -> f a = Err e \/ exists b, f a = Ok b) ->
  (exists a, In a l /\ f a = Err e) -> mapM f l = Err e.
Proof.
  induction l as [|a l IH]; intros H (x & HX & EX); [contradiction|]. cbn.
  destruct (H a (or_introl eq_refl)) as [E|[b E]]; rewrite E; [reflexivity|]. cbn.
  destruct HX as [->|HX]; [congruence|]. rewrite IH; [reflexivity| |eauto]. intros y HY. apply H. right. exact HY.
Qed.
Lemma course_missing c m : NoDup (map fst c) -> Forall (fun p => NoDup (map fst (snd p))) c -> a_frame c ->
  1 <= m <= 12 -> ~ In m (map fst c) -> read_course (JObj (map raw_col (raw_course c))) = Err KeyError.
Proof.
  intros D F A HM N. rewrite (read_course_enc c D F A). apply mapM_err.
  - intros a HA. destruct (lookup a (clean_course c)); eauto.
  - exists m. split; [apply twelve_In, HM|]. rewrite <- clean_fst in N. apply lookup_None_iff in N. rewrite N. reflexivity.
Qed.

(** ** the two parameter tables *)
Lemma enc_pairs_ok n1 n2 t : NoDup (map fst t) ->
  enc_pairs n1 n2 t = Ok (JObj (map raw_col [(n1, vmap enc_cell (vmap fst t)); (n2, vmap enc_cell (vmap snd t))])).
Proof.
  intro D. unfold enc_pairs. change (map (fun p => (fst p, fst (snd p))) t) with (vmap fst t). change (map (fun p => (fst p, snd (snd p))) t) with (vmap snd t).
  rewrite !enc_column_ok by (rewrite vmap_fst; exact D). reflexivity.
Qed.
Lemma combine_map_same {A B C} (f : A -> B) (g : A -> C) l : combine (map f l) (map g l) = map (fun a => (f a, g a)) l.
Proof. induction l; cbn; congruence. Qed.
Lemma read_pairs_enc n1 n2 t : n1 <> n2 -> NoDup (map fst t) ->
  read_pairs n1 n2 (JObj (map raw_col [(n1, vmap enc_cell (vmap fst t)); (n2, vmap enc_cell (vmap snd t))])) =
  Ok (vmap (fun x => (tab (fst x), tab (snd x))) (sort_index t)).
Proof.
  intros N D. unfold read_pairs. rewrite (read_frame_raw _ (map fst t)).
  - cbn [bind map fst snd assoc]. rewrite String.eqb_refl. destruct (String.eqb_spec n1 n2); [contradiction|]. rewrite String.eqb_refl.
    rewrite !num_column_enc. cbn [bind]. rewrite !sort_vmap. unfold vmap. rewrite !map_map. cbn [fst snd]. rewrite combine_map_same, map_map. reflexivity.
  - exact D.
  - repeat constructor; cbn [snd]; rewrite !vmap_fst; reflexivity.
Qed.

(** ** the humidity table *)
Definition rows_of {A} (f : A -> json) (l : list A) : list (Z * json) := map (fun p => (Z.of_nat (fst p), f (snd p))) (combine (seq 0 (length l)) l).
Lemma numbered_raw {A} n (f : A -> json) (l : list A) : (n, numbered f l) = raw_col (n, rows_of f l).
Proof. unfold numbered, raw_col, rows_of. cbn. rewrite map_map. reflexivity. Qed.
Lemma map_fst_combine {A B} (a : list A) (b : list B) : length a = length b -> map fst (combine a b) = a.
Proof. revert b; induction a as [|x a IH]; intros [|y b] H; cbn in *; try lia; [reflexivity|]. f_equal. apply IH. lia. Qed.
Lemma map_snd_combine {A B} (a : list A) (b : list B) : length a = length b -> map snd (combine a b) = b.
Proof. revert b; induction a as [|x a IH]; intros [|y b] H; cbn in *; try lia; [reflexivity|]. f_equal. apply IH. lia. Qed.
Lemma rows_fst {A} (f : A -> json) (l : list A) : map fst (rows_of f l) = map Z.of_nat (seq 0 (length l)).
Proof.
  unfold rows_of. rewrite map_map. cbn [fst]. rewrite <- (map_map fst Z.of_nat), map_fst_combine; [reflexivity|apply seq_length].
Qed.
Lemma rows_snd {A} (f : A -> json) (l : list A) : map snd (rows_of f l) = map f l.
Proof.
  unfold rows_of. rewrite map_map. cbn [snd]. rewrite <- (map_map snd f), map_snd_combine; [reflexivity|apply seq_length].
Qed.
Lemma seq_ascending n : forall s, ascending (map Z.of_nat (seq s n)).
Proof.
  induction n as [|n IH]; intro s; [exact I|]. cbn [seq map]. apply ascending_cons. split; [|apply IH].
  intros b HB. apply in_map_iff in HB as (i & <- & HI). apply in_seq in HI. lia.
Qed.
Lemma ascending_NoDup l : ascending l -> NoDup l.
Proof. induction l as [|a l IH]; intro H; constructor; apply ascending_cons in H as [H1 H2]; [intro HI; specialize (H1 a HI); lia|auto]. Qed.
Lemma rows_sorted {A} (f : A -> json) (l : list A) : sort_index (rows_of f l) = rows_of f l.
Proof. apply sort_sorted. rewrite rows_fst. apply seq_ascending. Qed.
Lemma mapM_rows {A B} (f : A -> json) (g : json -> res B) (h : A -> B) (l : list A) : (forall a, In a l -> g (f a) = Ok (h a)) ->
  mapM (fun p => g (snd p)) (rows_of f l) = Ok (map h l).
Proof.
  intro H. unfold rows_of. rewrite mapM_map. cbn [snd].
  rewrite <- (mapM_map (fun a => g (f a)) snd), map_snd_combine by apply seq_length. apply mapM_all, H.
Qed.
Definition raw_mhp (t : list (mhp_key * xr)) : list (string * list (Z * json)) :=
  [("level_0", rows_of (fun p => JInt (fst (fst (fst p)))) t); ("level_1", rows_of (fun p => JInt (snd (fst (fst p)))) t);
   ("level_2", rows_of (fun p => JBool (snd (fst p))) t); ("hum", rows_of (fun p => enc_cell (snd p)) t)].
Lemma enc_mhp_raw t : enc_mhp t = JObj (map raw_col (raw_mhp t)).
Proof. unfold enc_mhp, raw_mhp. cbn [map]. rewrite <- !numbered_raw. reflexivity. Qed.
Lemma read_frame_mhp t : read_frame (enc_mhp t) = Ok (raw_mhp t).
Proof.
  rewrite enc_mhp_raw, (read_frame_raw _ (map Z.of_nat (seq 0 (length t)))).
  - unfold raw_mhp. cbn [map fst snd]. rewrite !rows_sorted. reflexivity.
  - apply ascending_NoDup, seq_ascending.
  - unfold raw_mhp. repeat constructor; cbn [snd]; apply rows_fst.
Qed.
Lemma num_rows t : num_column (rows_of (fun p : mhp_key * xr => enc_cell (snd p)) t) =
  Ok (combine (map Z.of_nat (seq 0 (length t))) (map (fun p => tab (snd p)) t)).
Proof.
  unfold num_column, rows_of. rewrite mapM_map. cbn [fst snd].
  rewrite mapM_all with (g := fun p => (Z.of_nat (fst p), tab (snd (snd p)))); [|intros p HP; rewrite cell_enc; reflexivity].
  f_equal. generalize 0%nat. induction t as [|a t IH]; intro n; cbn; [reflexivity|]. f_equal. apply IH.
Qed.
Lemma length_1 {A} (l : list A) (X : Type) (x y : X) : match l with [_] => x | _ => y end = if Nat.eqb (length l) 1 then x else y.
Proof. destruct l as [|a [|b l]]; reflexivity. Qed.
Lemma combine_keys t : combine (combine (combine (map (fun p : mhp_key * xr => fst (fst (fst p))) t) (map (fun p => snd (fst (fst p))) t)) (map (fun p => snd (fst p)) t)) (map (fun p => tab (snd p)) t)
  = map (fun p => (fst p, tab (snd p))) t.
Proof. rewrite !combine_map_same. apply map_ext. intros [[[m h] w] v]. reflexivity. Qed.
Lemma read_mhp_enc t : read_mhp (enc_mhp t) = if Nat.eqb (length t) 1 then Err AttributeError else Ok (map (fun p => (fst p, tab (snd p))) t).
Proof.
  unfold read_mhp. rewrite read_frame_mhp. cbn [bind].
  change (assoc "level_0" (raw_mhp t)) with (Some (rows_of (fun p : mhp_key * xr => JInt (fst (fst (fst p)))) t)).
  change (assoc "level_1" (raw_mhp t)) with (Some (rows_of (fun p : mhp_key * xr => JInt (snd (fst (fst p)))) t)).
  change (assoc "level_2" (raw_mhp t)) with (Some (rows_of (fun p : mhp_key * xr => JBool (snd (fst p))) t)).
  change (filter _ (raw_mhp t)) with [("hum", rows_of (fun p : mhp_key * xr => enc_cell (snd p)) t)].
  cbv iota beta.
  rewrite (mapM_rows _ int_of (fun p : mhp_key * xr => fst (fst (fst p)))) by reflexivity. cbn [bind].
  rewrite (mapM_rows _ int_of (fun p : mhp_key * xr => snd (fst (fst p)))) by reflexivity. cbn [bind].
  rewrite (mapM_rows _ bool_of (fun p : mhp_key * xr => snd (fst p))) by reflexivity. cbn [bind].
  rewrite num_rows. cbn [bind]. rewrite length_1, combine_length, !map_length, seq_length, Nat.min_id.
  destruct (Nat.eqb (length t) 1); [reflexivity|]. rewrite map_snd_combine by (rewrite !map_length, seq_length; reflexivity).
  exact (f_equal Ok (combine_keys t)).
Qed.

(** ** the object hook *)
Definition plain (j : json) : Prop := load j = Ok j.
Lemma load_arr l : load (JArr l) = let* l := mapM load l in Ok (JArr l).
Proof. cbn [load]. f_equal. induction l as [|x l IH]; [reflexivity|]. cbn. rewrite IH. reflexivity. Qed.
Lemma load_obj kv : load (JObj kv) = let* kv := mapM (fun p => let* x := load (snd p) in Ok (fst p, x)) kv in json_decoder kv.
Proof.
  cbn [load]. f_equal. induction kv as [|[k x] l IH]; [reflexivity|]. cbn. destruct (load x); [|reflexivity]. cbn. rewrite IH. reflexivity.
Qed.
Lemma plain_arr l : Forall plain l -> plain (JArr l).
Proof.
  intro F. unfold plain. rewrite load_arr. rewrite mapM_all with (g := fun x => x); [cbn; rewrite map_id; reflexivity|].
  rewrite Forall_forall in F. exact F.
Qed.
Lemma plain_obj kv : Forall (fun p => plain (snd p)) kv -> assoc "p01" kv = None -> plain (JObj kv).
Proof.
  intros F A. unfold plain. rewrite load_obj. rewrite mapM_all with (g := fun x => x).
  - cbn. rewrite map_id. unfold json_decoder, has_key. rewrite A. reflexivity.
  - rewrite Forall_forall in F. intros p HP. rewrite (F p HP). destruct p; reflexivity.
Qed.
Lemma assoc_keys (l : list (Z * json)) : assoc "p01" (map (fun q => (key (fst q), snd q)) l) = None.
Proof.
  induction l as [|[t v] l IH]; [reflexivity|]. cbn [map assoc fst]. destruct (String.eqb_spec (key t) "p01") as [E|_]; [destruct (key_p01 t E)|exact IH].
Qed.
Lemma plain_raw c : Forall (fun p => plain (snd p)) (snd c) -> plain (snd (raw_col c)).
Proof. intro F. apply plain_obj; [|apply assoc_keys]. apply Forall_map. exact F. Qed.
Lemma plain_cell x : plain (enc_cell x). Proof. destruct x; reflexivity. Qed.
Lemma plain_vmap l : Forall (fun p => plain (snd p)) (vmap enc_cell l).
Proof. apply Forall_map, Forall_forall. intros p _. apply plain_cell. Qed.
Lemma plain_column s j : enc_column s = Ok j -> plain j.
Proof.
  unfold enc_column. destruct (has_dup _); [discriminate|]. intro E; injection E as <-.
  pose proof (plain_raw ("", vmap enc_cell s) (plain_vmap s)) as H. cbn in H. unfold vmap in H. rewrite map_map in H. exact H.
Qed.
Lemma plain_course c : plain (JObj (map raw_col (raw_course c))).
Proof.
  apply plain_obj.
  - apply Forall_map. unfold raw_course. apply Forall_map, Forall_forall. intros p _. apply plain_raw, plain_vmap.
  - induction c as [|[m col] c IH]; [reflexivity|]. cbn [raw_course map assoc fst raw_col].
    destruct (String.eqb_spec (key m) "p01") as [E|_]; [destruct (key_p01 m E)|exact IH].
Qed.
Lemma plain_pairs n1 n2 (c1 c2 : list (Z * xr)) : n1 <> "p01" -> n2 <> "p01" -> plain (JObj (map raw_col [(n1, vmap enc_cell c1); (n2, vmap enc_cell c2)])).
Proof.
  intros N1 N2. apply plain_obj.
  - repeat constructor; apply plain_raw, plain_vmap.
  - cbn [map raw_col assoc fst]. destruct (String.eqb_spec n1 "p01"); [contradiction|]. destruct (String.eqb_spec n2 "p01"); [contradiction|]. reflexivity.
Qed.
Lemma plain_mhp t : plain (enc_mhp t).
Proof.
  rewrite enc_mhp_raw. apply plain_obj; [|reflexivity]. unfold raw_mhp.
  assert (R : forall f, (forall p : mhp_key * xr, plain (f p)) -> Forall (fun p => plain (snd p)) (rows_of f t)).
  { intros f H. apply Forall_map, Forall_forall. intros p _. apply H. }
  repeat constructor; apply plain_raw, R; intro p; reflexivity || apply plain_cell.
Qed.
Lemma plain_months m : plain (enc_months m).
Proof. destruct m as [l|]; [|reflexivity]. apply plain_arr, Forall_map, Forall_forall. reflexivity. Qed.

(** ** cascade statistics *)
Lemma plain_table f : plain (enc_table f).
Proof. reflexivity. Qed.
Lemma plain_nums l : plain (JArr (map JNum l)).
Proof. apply plain_arr, Forall_map, Forall_forall. reflexivity. Qed.
Lemma shape_nums l : np_shape (JArr (map JNum l)) = Some [length l].
Proof.
  cbn [np_shape].
  assert (G : forall l n, (fix go (l : list json) (n : nat) (s : option (list nat)) {struct l} : option (list nat) :=
         match l with
         | [] => match s with Some d => Some (n :: d) | None => Some [n] end
         | x :: r => match np_shape x with
             | Some d => match s with None => go r (S n) (Some d) | Some d0 => if same_dims d0 d then go r (S n) (Some d0) else None end
             | None => None end
         end) (map JNum l) n (Some []) = Some [(n + length l)%nat]).
  { clear l. induction l as [|x l IH]; intro n; cbn [map length]; [f_equal; f_equal; lia|]. cbn [np_shape same_dims]. rewrite IH. f_equal. f_equal. lia. }
  destruct l as [|x l]; [reflexivity|]. cbn [map np_shape]. rewrite G. reflexivity.
Qed.
Lemma load_casc c : load (enc_casc c) =
  Ok (JCasc (enc_table (p01 c)) (enc_table (p10 c)) (enc_table (pxx c)) (JArr (map (fun k => enc_table (wxx c k)) (seq 0 7)))
        (JArr (map JNum (threshold c))) (JNum (percentile c))).
Proof.
  unfold enc_casc. rewrite load_obj. set (w := JArr (map (fun k => enc_table (wxx c k)) (seq 0 7))). set (t := JArr (map JNum (threshold c))).
  assert (PW : plain w) by reflexivity. assert (PT : plain t) by apply plain_nums.
  cbn [mapM fst snd]. rewrite !(plain_table : forall f, load (enc_table f) = _), PW, PT. cbn [bind load].
  unfold json_decoder. cbn [has_key assoc String.eqb Ascii.eqb Bool.eqb andb]. unfold from_dict, item. cbn [assoc String.eqb Ascii.eqb Bool.eqb bind].
  unfold np_array. rewrite (shape_nums (threshold c) : np_shape t = _). reflexivity.
Qed.
Definition casc_back (c : casc xr) : casc xr :=
  {| p01 := fun i k => val (elem (elem (enc_table (p01 c)) i) k);
     p10 := fun i k => val (elem (elem (enc_table (p10 c)) i) k);
     pxx := fun i k => val (elem (elem (enc_table (pxx c)) i) k);
     wxx := fun n i k => val (elem (elem (elem (JArr (map (fun k => enc_table (wxx c k)) (seq 0 7))) n) i) k);
     threshold := threshold c; percentile := percentile c |}.
Definition casc_tree (c : casc xr) : json :=
  JCasc (enc_table (p01 c)) (enc_table (p10 c)) (enc_table (pxx c)) (JArr (map (fun k => enc_table (wxx c k)) (seq 0 7)))
        (JArr (map JNum (threshold c))) (JNum (percentile c)).
Lemma casc_of_tree c : casc_of (casc_tree c) = Ok (casc_back c).
Proof.
  unfold casc_of, casc_tree. cbn [list_of bind]. rewrite mapM_map. rewrite mapM_all with (g := fun x => x) by reflexivity.
  cbn [bind num_of]. rewrite map_id. reflexivity.
Qed.
Lemma elem_table f b t : (b < 2)%nat -> (t < 4)%nat -> val (elem (elem (enc_table f) b) t) = f b t.
Proof. intros HB HT. destruct b as [|[|b]]; [| |lia]; destruct t as [|[|[|[|t]]]]; try lia; reflexivity. Qed.
Lemma casc_back_same c : same_casc c (casc_back c).
Proof.
  split; [|split; reflexivity]. intros b t HB HT. cbn [casc_back p01 p10 pxx wxx]. rewrite !elem_table by assumption. repeat split.
  intros k HK. do 7 (destruct k as [|k]; [apply elem_table; assumption|]). lia.
Qed.
Definition arg_tree (a : casc_arg xr) : json :=
  match a with COne c => casc_tree c | CList l => JArr (map casc_tree l) | COther => JNull end.
Lemma load_arg a j : enc_arg a = Ok j -> load j = Ok (arg_tree a).
Proof.
  destruct a as [c|l|]; cbn; intro E; try discriminate; injection E as <-.
  - apply load_casc.
  - rewrite load_arr, mapM_map. rewrite mapM_all with (g := casc_tree); [reflexivity|]. intros c _. apply load_casc.
Qed.
Lemma arg_of_tree a : a <> COther -> exists a', arg_of (arg_tree a) = Ok a' /\ same_arg a a'.
Proof.
  intro N. destruct a as [c|l|]; [| |congruence].
  - exists (COne (casc_back c)). split; [|apply casc_back_same]. change (arg_of (arg_tree (COne c))) with (let* c := casc_of (casc_tree c) in Ok (COne c)).
    rewrite casc_of_tree. reflexivity.
  - exists (CList (map casc_back l)). split.
    + cbn [arg_tree arg_of]. rewrite mapM_map. rewrite mapM_all with (g := casc_back); [reflexivity|]. intros c _. apply casc_of_tree.
    + clear N. cbn. induction l; constructor; auto using casc_back_same.
Qed.
Lemma enc_args l : Forall (fun a => a <> COther) l -> exists js, mapM enc_arg l = Ok js /\ mapM load js = Ok (map arg_tree l).
Proof.
  induction l as [|a l IH]; intro F; [exists []; split; reflexivity|]. inversion F as [|? ? F1 F2]; subst.
  destruct (IH F2) as (js & E1 & E2). assert (EJ : exists j, enc_arg a = Ok j) by (destruct a; [eexists; reflexivity|eexists; reflexivity|congruence]).
  destruct EJ as [j EJ]. exists (j :: js). cbn. rewrite EJ, E1. cbn. rewrite (load_arg _ _ EJ), E2. split; reflexivity.
Qed.
Lemma args_back l : Forall (fun a => a <> COther) l -> exists l', mapM arg_of (map arg_tree l) = Ok l' /\ Forall2 same_arg l l'.
Proof.
  induction l as [|a l IH]; intro F; [exists []; split; [reflexivity|constructor]|]. inversion F as [|? ? F1 F2]; subst.
  destruct (IH F2) as (l' & E & S1). destruct (arg_of_tree a F1) as (a' & EA & SA).
  exists (a' :: l'). cbn [map mapM]. rewrite EA. cbn [bind]. rewrite E. split; [reflexivity|constructor; assumption].
Qed.
