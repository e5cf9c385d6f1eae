(** C59: attribute and item access of a Bunch agree; copies are independent. *)
From Coq Require Import String ZArith List Bool Lia Arith.
From Verif Require Import Py Frame BunchModel SpecBunch.
Import ListNotations.
Open Scope string_scope.
Open Scope nat_scope.
Open Scope list_scope.

(** ** heap updates *)
Lemma upd_length h a o : a < length h -> length (upd h a o) = length h.
Proof. intro H. unfold upd. rewrite app_length, firstn_length_le by lia. cbn [length]. rewrite skipn_length. lia. Qed.
Lemma upd_same h a o : a < length h -> nth_error (upd h a o) a = Some o.
Proof.
  intro H. unfold upd. rewrite nth_error_app2 by (rewrite firstn_length_le; lia).
  rewrite firstn_length_le, Nat.sub_diag by lia. reflexivity.
Qed.
Lemma upd_other h a o b : a < length h -> a <> b -> nth_error (upd h a o) b = nth_error h b.
Proof.
  intros H N. unfold upd. destruct (Nat.lt_ge_cases b a).
  - rewrite nth_error_app1 by (rewrite firstn_length_le; lia).
    rewrite <- (firstn_skipn a h) at 2. rewrite nth_error_app1 by (rewrite firstn_length_le; lia). reflexivity.
  - rewrite nth_error_app2 by (rewrite firstn_length_le; lia). rewrite firstn_length_le by lia.
    destruct (b - a) as [|d] eqn:E; [lia|]. cbn [nth_error].
    rewrite <- (firstn_skipn (S a) h) at 2. rewrite nth_error_app2 by (rewrite firstn_length_le; lia).
    rewrite firstn_length_le by lia. f_equal. lia.
Qed.
Lemma nth_lt {A} (h : list A) a o : nth_error h a = Some o -> a < length h.
Proof. intro H. apply nth_error_Some. congruence. Qed.

(** every operation rewrites at most one object, keeps its kind and (for the admitted ones) its slot *)
Definition same_kind (o o' : hobj) : Prop :=
  match o, o' with
  | OList _, OList _ => True
  | ODict _, ODict _ => True
  | OBunch _ s, OBunch _ s' => s = s'
  | _, _ => False
  end.
Definition touches (h : heap) (a b : nat) : Prop :=
  b = a \/ exists kv, nth_error h a = Some (OBunch kv b).
Lemma set_items_cases h a kv :
  set_items h a kv = h \/
  exists o o', nth_error h a = Some o /\ same_kind o o' /\ set_items h a kv = upd h a o'.
Proof.
  unfold set_items. destruct (nth_error h a) as [[l|kv0|kv0 s]|] eqn:E; auto; right.
  - exists (ODict kv0), (ODict kv). cbn. auto.
  - exists (OBunch kv0 s), (OBunch kv s). cbn. auto.
Qed.
Lemma step_cases h o : keeps_dict o ->
  step h o = h \/
  exists b x x', touches h (fst o) b /\ nth_error h b = Some x /\ same_kind x x' /\ step h o = upd h b x'.
Proof.
  destruct o as [a o]. unfold keeps_dict, step. cbn [fst snd]. intro K.
  assert (I : forall kv b, touches h a b ->
    set_items h b kv = h \/ exists b0 x x', touches h a b0 /\ nth_error h b0 = Some x /\ same_kind x x' /\ set_items h b kv = upd h b0 x').
  { intros kv b HB. destruct (set_items_cases h b kv) as [->|(x & x' & H1 & H2 & H3)]; [auto|]. right. exists b, x, x'. auto. }
  destruct o as [k v|k v|k|k|new|v|i v].
  - unfold set_item. destruct (dict_items h a); [|auto]. apply I. left; reflexivity.
  - unfold set_attr. destruct (nth_error h a) as [[l|kv0|kv0 s]|] eqn:E; auto.
    destruct (String.eqb_spec k "__dict__"); [contradiction|]. destruct (reserved k); [auto|].
    destruct (dict_items h s); [|auto]. apply I. right. eauto.
  - unfold del_item. destruct (dict_items h a) as [kv|]; [|auto]. destruct (assoc k kv); [|auto]. apply I. left; reflexivity.
  - unfold del_attr. destruct (nth_error h a) as [[l|kv0|kv0 s]|] eqn:E; auto.
    destruct (reserved k); [auto|]. destruct (dict_items h s) as [kv|]; [|auto]. destruct (assoc k kv); [|auto].
    apply I. right. eauto.
  - unfold update. destruct (dict_items h a); [|auto]. apply I. left; reflexivity.
  - unfold append. destruct (nth_error h a) as [[l|kv0|kv0 s]|] eqn:E; auto.
    right. exists a, (OList l), (OList (l ++ [v])). cbn. unfold touches. auto.
  - unfold set_elem. destruct (nth_error h a) as [[l|kv0|kv0 s]|] eqn:E; auto.
    destruct (Nat.ltb i (length l)); [|auto].
    right. exists a, (OList l), (OList (firstn i l ++ v :: skipn (S i) l)). cbn. unfold touches. auto.
Qed.
Lemma step_kind h o a x : keeps_dict o -> nth_error h a = Some x ->
  exists x', nth_error (step h o) a = Some x' /\ same_kind x x'.
Proof.
  intros K H. assert (R : same_kind x x) by (destruct x; cbn; auto).
  destruct (step_cases h o K) as [->|(b & y & y' & _ & H1 & H2 & ->)]; [eauto|].
  destruct (Nat.eq_dec b a) as [->|N].
  - rewrite upd_same by (eapply nth_lt; eauto). rewrite H in H1. injection H1 as <-. eauto.
  - rewrite upd_other by (eauto using nth_lt). eauto.
Qed.
Lemma same_kind_trans x y z : same_kind x y -> same_kind y z -> same_kind x z.
Proof. destruct x, y, z; cbn; intuition congruence. Qed.
Lemma run_kind ops : forall h a x, Forall keeps_dict ops -> nth_error h a = Some x ->
  exists x', nth_error (run h ops) a = Some x' /\ same_kind x x'.
Proof.
  induction ops as [|o ops IH]; intros h a x K H; cbn.
  - exists x. split; [assumption|]. destruct x; cbn; auto.
  - inversion K as [|? ? K1 K2]; subst. destruct (step_kind h o a x K1 H) as (x1 & H1 & S1).
    destruct (IH _ a x1 K2 H1) as (x2 & H2 & S2). exists x2. split; [assumption|]. eapply same_kind_trans; eauto.
Qed.

(** ** attribute and item access *)
Lemma self_slot h a kv k : nth_error h a = Some (OBunch kv a) -> reserved k = false ->
  get_item h a k = match assoc k kv with Some v => Ok v | None => Err KeyError end /\
  get_attr h a k = match assoc k kv with
                   | Some v => Ok (AStored v)
                   | None => if on_type k then Ok AType else Err AttributeError end.
Proof. intros H R. unfold get_item, get_attr, dict_items. rewrite H, R, H. auto. Qed.

Theorem C59_access_agrees : forall h kw h0 a ops k,
  bunch_new h kw = Ok (h0, a) -> Forall keeps_dict ops -> reserved k = false ->
  let h' := run h0 ops in
  (forall v, get_attr h' a k = Ok (AStored v) <-> get_item h' a k = Ok v) /\
  (get_item h' a k = Err KeyError <-> (get_attr h' a k = Err AttributeError \/ get_attr h' a k = Ok AType)) /\
  (get_attr h' a k = Ok AType -> on_type k = true).
Proof.
  intros h kw h0 a ops k B K R h'. unfold bunch_new in B.
  destruct (existsb _ kw); [discriminate|]. injection B as <- <-.
  assert (H : nth_error (h ++ [OBunch kw (length h)]) (length h) = Some (OBunch kw (length h))).
  { rewrite nth_error_app2, Nat.sub_diag by lia. reflexivity. }
  destruct (run_kind ops _ _ _ K H) as (x & H1 & S1).
  destruct x as [|kv|kv s]; try contradiction. cbn in S1. subst s.
  destruct (self_slot _ _ _ k H1 R) as [E1 E2]. fold h' in E1, E2. rewrite E1, E2.
  destruct (assoc k kv); [|destruct (on_type k)]; repeat split; intros; try congruence; auto;
    repeat match goal with H : _ \/ _ |- _ => destruct H end; congruence.
Qed.
(** a value stored through one notation is read through the other *)
Lemma assoc_put k v kv k' : assoc k' (put k v kv) = if String.eqb k k' then Some v else assoc k' kv.
Proof.
  induction kv as [|(k0, v0) r IH]; cbn; [destruct (String.eqb k k'); reflexivity|].
  destruct (String.eqb_spec k0 k) as [->|N]; cbn.
  - destruct (String.eqb_spec k k'); reflexivity.
  - rewrite IH. destruct (String.eqb_spec k0 k') as [->|]; [|reflexivity].
    destruct (String.eqb_spec k k'); [congruence|reflexivity].
Qed.
Theorem C59_write_read : forall h kw h0 a ops k v,
  bunch_new h kw = Ok (h0, a) -> Forall keeps_dict ops -> reserved k = false ->
  let h1 := run h0 ops in
  let written := [step h1 (a, BSetItem k v); step h1 (a, BSetAttr k v); step h1 (a, BUpdate [(k, v)])] in
  forall h2, In h2 written ->
    get_attr h2 a k = Ok (AStored v) /\ get_item h2 a k = Ok v /\
    forall k', k' <> k -> get_item h2 a k' = get_item h1 a k' /\ get_attr h2 a k' = get_attr h1 a k'.
Proof.
  intros h kw h0 a ops k v B K R h1 written h2 IN. unfold bunch_new in B.
  destruct (existsb _ kw); [discriminate|]. injection B as <- <-.
  assert (H : nth_error (h ++ [OBunch kw (length h)]) (length h) = Some (OBunch kw (length h))).
  { rewrite nth_error_app2, Nat.sub_diag by lia. reflexivity. }
  destruct (run_kind ops _ _ _ K H) as (x & H1 & S1). fold h1 in H1. set (a := length h) in *.
  destruct x as [|kv|kv s]; try contradiction. cbn in S1. subst s.
  assert (E : h2 = upd h1 a (OBunch (put k v kv) a)).
  { assert (ND : String.eqb k "__dict__" = false).
    { unfold reserved in R. apply orb_false_iff in R as [R _]. apply orb_false_iff in R as [R _]. exact R. }
    unfold written in IN. destruct IN as [<-|[<-|[<-|[]]]]; unfold step; cbn [fst snd].
    - unfold set_item, dict_items, set_items. rewrite H1. reflexivity.
    - unfold set_attr. rewrite H1, ND, R. unfold dict_items, set_items. rewrite H1. reflexivity.
    - unfold update, dict_items, set_items. rewrite H1. reflexivity. }
  assert (L : a < length h1) by (eapply nth_lt; eauto).
  assert (H2 : nth_error h2 a = Some (OBunch (put k v kv) a)) by (subst h2; apply upd_same, L).
  destruct (self_slot _ _ _ k H2 R) as [E1 E2]. rewrite E1, E2, assoc_put, String.eqb_refl.
  split; [reflexivity|]. split; [reflexivity|]. intros k' N.
  unfold get_item, get_attr, dict_items. rewrite H1, H2, H1, H2, assoc_put.
  destruct (String.eqb_spec k k'); [congruence|]. auto.
Qed.
(** the three names resolved by the type itself do disagree *)
Theorem C59_reserved_refuted : exists h a k v, bunch_new [] [] = Ok (h, a) /\
  get_item (step h (a, BSetItem k v)) a k = Ok v /\ get_attr (step h (a, BSetItem k v)) a k <> Ok (AStored v).
Proof. exists [OBunch [] 0], 0, "__class__", (VAtom 1). split; [reflexivity|]. split; [reflexivity|]. discriminate. Qed.

(** ** shallow copies *)
Lemma step_local h o b : keeps_dict o -> (forall c, touches h (fst o) c -> c <> b) ->
  nth_error (step h o) b = nth_error h b.
Proof.
  intros K T. destruct (step_cases h o K) as [->|(c & x & x' & H1 & H2 & _ & ->)]; [reflexivity|].
  apply upd_other; [eapply nth_lt; eauto|auto].
Qed.
(** operations on one Bunch (whose attributes live in itself) leave every other object alone *)
Lemma run_local ops : forall h a kv b, Forall keeps_dict ops -> Forall (fun o => fst o = a) ops ->
  nth_error h a = Some (OBunch kv a) -> a <> b -> nth_error (run h ops) b = nth_error h b.
Proof.
  induction ops as [|o ops IH]; intros h a kv b K T H N; [reflexivity|]. change (run h (o :: ops)) with (run (step h o) ops).
  inversion K as [|? ? K1 K2]; subst. inversion T as [|? ? T1 T2]; subst.
  destruct (step_kind h o _ _ K1 H) as (x & H1 & S1). destruct x as [|kv'|kv' s]; try contradiction. cbn in S1. subst s.
  rewrite (IH _ _ kv' b K2 T2 H1 N). apply step_local; [assumption|].
  intros c [->|(kv0 & E)]; [assumption|]. rewrite H in E. injection E as _ <-. assumption.
Qed.
Theorem C59_copy_independent : forall h a kv h' a',
  nth_error h a = Some (OBunch kv a) -> bunch_copy h a = Ok (h', a') ->
  a' <> a /\ nth_error h' a = nth_error h a /\
  (forall k, reserved k = false -> get_item h' a' k = get_item h' a k /\ get_attr h' a' k = get_attr h' a k) /\
  forall ops, Forall keeps_dict ops ->
    (Forall (fun o => fst o = a') ops -> nth_error (run h' ops) a = nth_error h' a) /\
    (Forall (fun o => fst o = a) ops -> nth_error (run h' ops) a' = nth_error h' a').
Proof.
  intros h a kv h' a' H C. pose proof (nth_lt _ _ _ H) as L. unfold bunch_copy in C. rewrite H in C. unfold bunch_new in C.
  destruct (existsb _ kv); [discriminate|]. injection C as <- <-.
  assert (H1 : nth_error (h ++ [OBunch kv (length h)]) (length h) = Some (OBunch kv (length h))).
  { rewrite nth_error_app2, Nat.sub_diag by lia. reflexivity. }
  assert (H2 : nth_error (h ++ [OBunch kv (length h)]) a = Some (OBunch kv a)) by (rewrite nth_error_app1 by lia; exact H).
  split; [lia|]. split; [rewrite H2, H; reflexivity|]. split.
  { intros k R. destruct (self_slot _ _ _ k H1 R) as [-> ->]. destruct (self_slot _ _ _ k H2 R) as [-> ->]. auto. }
  intros ops K. split; intro T; (eapply run_local; [exact K|exact T|eassumption|lia]).
Qed.
(** but the values themselves are shared: a list held by the original changes under both *)
Theorem C59_copy_shares : forall h a kv h' a' k b l v,
  nth_error h a = Some (OBunch kv a) -> bunch_copy h a = Ok (h', a') ->
  get_item h a k = Ok (VRef b) -> nth_error h b = Some (OList l) ->
  let h2 := step h' (b, BAppend v) in
  get_item h2 a k = Ok (VRef b) /\ get_item h2 a' k = Ok (VRef b) /\ nth_error h2 b = Some (OList (l ++ [v])).
Proof.
  intros h a kv h' a' k b l v H C G HB. pose proof (nth_lt _ _ _ H) as L. pose proof (nth_lt _ _ _ HB) as LB.
  unfold bunch_copy in C. rewrite H in C. unfold bunch_new in C. destruct (existsb _ kv); [discriminate|]. injection C as <- <-.
  assert (H1 : nth_error (h ++ [OBunch kv (length h)]) (length h) = Some (OBunch kv (length h))).
  { rewrite nth_error_app2, Nat.sub_diag by lia. reflexivity. }
  assert (H2 : nth_error (h ++ [OBunch kv (length h)]) a = Some (OBunch kv a)) by (rewrite nth_error_app1 by lia; exact H).
  assert (H3 : nth_error (h ++ [OBunch kv (length h)]) b = Some (OList l)) by (rewrite nth_error_app1 by lia; exact HB).
  cbv zeta. unfold step. cbn [fst snd]. unfold append. rewrite H3.
  assert (LB' : b < length (h ++ [OBunch kv (length h)])) by (rewrite app_length; cbn; lia).
  unfold get_item, dict_items in *. rewrite H in G. rewrite upd_same by exact LB'.
  assert (b <> a) by (intros ->; rewrite H in HB; discriminate).
  rewrite !upd_other by (lia || assumption). rewrite H1, H2. destruct (assoc k kv); [|discriminate]. auto.
Qed.
(** copying fails when an item is called self *)
Theorem C59_copy_self_refuted : exists h a, 
  run [OBunch [] 0] [(0, BSetItem "self" (VAtom 1))] = h /\ nth_error h a = Some (OBunch [("self", VAtom 1)] a) /\
  bunch_copy h a = Err TypeError /\ forall n, deepcopy n h [] (VRef a) = None.
Proof.
  exists [OBunch [("self", VAtom 1)] 0], 0. split; [reflexivity|]. split; [reflexivity|]. split; [reflexivity|].
  intros [|[|n]]; reflexivity.
Qed.

(** ** deep copies *)
Lemma opts_map_ext {A B} (f g : A -> option B) l : (forall a, In a l -> f a = g a) -> opts (map f l) = opts (map g l).
Proof. intro H. f_equal. apply map_ext_in, H. Qed.
Lemma tagged_ext {A B} (f g : A -> option B) l : (forall k a, In (k, a) l -> f a = g a) -> tagged f l = tagged g l.
Proof.
  intro H. unfold tagged. f_equal. apply map_ext_in. intros [k a] HI. cbn. rewrite (H k a HI). reflexivity.
Qed.
(** contents do not depend on later objects *)
Lemma content_app h x : well_formed h -> forall n v, ref_in h v -> content n (h ++ x) v = content n h v.
Proof.
  intros W n. induction n as [|n IH]; intros v V; [reflexivity|]. destruct v as [z|a]; [reflexivity|]. cbn [content].
  cbn in V. rewrite nth_error_app1 by exact V. destruct (nth_error h a) as [o|] eqn:E; [|reflexivity].
  pose proof (W a o E) as F. rewrite Forall_forall in F. destruct o as [l|kv|kv s]; cbn [held] in F.
  - f_equal. apply opts_map_ext. intros v HV. apply IH, F, HV.
  - f_equal. apply tagged_ext. intros k v HV. apply IH, F. apply (in_map snd) in HV. exact HV.
  - f_equal. apply tagged_ext. intros k v HV. apply IH, F. right. apply (in_map snd) in HV. exact HV.
Qed.

Definition ge_ref (n0 : nat) (v : value) : Prop := match v with VRef a => n0 <= a | VAtom _ => True end.
Definition fresh_from (n0 : nat) (h : heap) : Prop :=
  forall a o, n0 <= a -> nth_error h a = Some o -> Forall (ge_ref n0) (held o).
Definition extends (h h' : heap) : Prop := exists x, h' = h ++ x.
Lemma extends_refl h : extends h h. Proof. exists []. symmetry; apply app_nil_r. Qed.
Lemma extends_trans a b c : extends a b -> extends b c -> extends a c.
Proof. intros [x ->] [y ->]. exists (x ++ y). symmetry; apply app_assoc. Qed.
Lemma ref_in_ext h h' v : extends h h' -> ref_in h v -> ref_in h' v.
Proof. intros [x ->]. destruct v; cbn; [auto|]. rewrite app_length. lia. Qed.
Definition memo_ok (n0 : nat) (h : heap) (p : nat * nat) : Prop :=
  fst p < length h /\ n0 <= snd p < length h /\ forall n, content n h (VRef (snd p)) = content n h (VRef (fst p)).
Definition inv (n0 : nat) (h : heap) (memo : list (nat * nat)) : Prop :=
  n0 <= length h /\ well_formed h /\ fresh_from n0 h /\ Forall (memo_ok n0 h) memo.
Definition good (n0 : nat) (h h' : heap) (memo' : list (nat * nat)) : Prop := extends h h' /\ inv n0 h' memo'.

Lemma memo_ext n0 h h' p : well_formed h -> extends h h' -> memo_ok n0 h p -> memo_ok n0 h' p.
Proof.
  intros W [x ->] (H1 & H2 & H3). unfold memo_ok. rewrite app_length. repeat split; try lia.
  intro n. rewrite !content_app; cbn; auto; lia.
Qed.
(** adding an object whose values are valid and fresh *)
Lemma inv_alloc n0 h memo o : inv n0 h memo -> Forall (ref_in (h ++ [o])) (held o) -> Forall (ge_ref n0) (held o) ->
  inv n0 (h ++ [o]) memo.
Proof.
  intros (L & W & F & M) V G. split; [rewrite app_length; lia|]. split; [|split].
  - intros a o' E. destruct (Nat.lt_ge_cases a (length h)) as [Q|Q].
    + rewrite nth_error_app1 in E by exact Q. eapply Forall_impl; [|exact (W a o' E)].
      intros v. apply ref_in_ext. exists [o]; reflexivity.
    + rewrite nth_error_app2 in E by exact Q. destruct (a - length h) as [|[|]]; cbn in E; try discriminate.
      injection E as <-. exact V.
  - intros a o' Q E. destruct (Nat.lt_ge_cases a (length h)) as [Q'|Q'].
    + rewrite nth_error_app1 in E by exact Q'. exact (F a o' Q E).
    + rewrite nth_error_app2 in E by exact Q'. destruct (a - length h) as [|[|]]; cbn in E; try discriminate.
      injection E as <-. exact G.
  - eapply Forall_impl; [|exact M]. intros p. apply memo_ext; [exact W|exists [o]; reflexivity].
Qed.
Definition rec_ok n0 (rec : heap -> list (nat * nat) -> value -> option (heap * list (nat * nat) * value)) : Prop :=
  forall h memo v h' memo' v', rec h memo v = Some (h', memo', v') -> ref_in h v -> inv n0 h memo ->
    good n0 h h' memo' /\ ref_in h' v' /\ ge_ref n0 v' /\ forall n, content n h' v' = content n h' v.
Lemma deep_list_ok n0 rec : rec_ok n0 rec -> forall l h memo h' memo' l',
  deep_list rec h memo l = Some (h', memo', l') -> Forall (ref_in h) l -> inv n0 h memo ->
  good n0 h h' memo' /\ Forall (ref_in h') l' /\ Forall (ge_ref n0) l' /\
  forall n, map (content n h') l' = map (content n h') l.
Proof.
  intro RO. induction l as [|v r IH]; intros h memo h' memo' l' E V I; cbn in E.
  - injection E as <- <- <-. repeat split; try apply I; auto using extends_refl.
  - destruct (rec h memo v) as [[[h1 m1] v1]|] eqn:E1; [|discriminate].
    destruct (deep_list rec h1 m1 r) as [[[h2 m2] r2]|] eqn:E2; [|discriminate]. injection E as <- <- <-.
    inversion V as [|? ? V1 V2]; subst. destruct (RO _ _ _ _ _ _ E1 V1 I) as ((X1 & I1) & R1 & G1 & C1).
    assert (V2' : Forall (ref_in h1) r) by (eapply Forall_impl; [|exact V2]; intro; apply ref_in_ext, X1).
    destruct (IH _ _ _ _ _ E2 V2' I1) as ((X2 & I2) & R2 & G2 & C2).
    split; [split; [eapply extends_trans; eauto|exact I2]|].
    split; [constructor; [eapply ref_in_ext; eauto|exact R2]|]. split; [constructor; assumption|].
    intro n. cbn [map]. f_equal; [|apply C2]. destruct X2 as [x ->]. destruct I1 as (_ & W1 & _).
    rewrite !content_app; auto. eapply ref_in_ext; eauto.
Qed.
Lemma deep_items_ok n0 rec : rec_ok n0 rec -> forall l h memo h' memo' l',
  deep_items rec h memo l = Some (h', memo', l') -> Forall (ref_in h) (map snd l) -> inv n0 h memo ->
  good n0 h h' memo' /\ Forall (ref_in h') (map snd l') /\ Forall (ge_ref n0) (map snd l') /\ map fst l' = map fst l /\
  forall n, map (fun p => (fst p, content n h' (snd p))) l' = map (fun p => (fst p, content n h' (snd p))) l.
Proof.
  intro RO. induction l as [|[k v] r IH]; intros h memo h' memo' l' E V I; cbn in E.
  - injection E as <- <- <-. repeat split; try apply I; cbn; auto using extends_refl.
  - destruct (rec h memo v) as [[[h1 m1] v1]|] eqn:E1; [|discriminate].
    destruct (deep_items rec h1 m1 r) as [[[h2 m2] r2]|] eqn:E2; [|discriminate]. injection E as <- <- <-.
    inversion V as [|? ? V1 V2]; subst. destruct (RO _ _ _ _ _ _ E1 V1 I) as ((X1 & I1) & R1 & G1 & C1).
    assert (V2' : Forall (ref_in h1) (map snd r)) by (eapply Forall_impl; [|exact V2]; intro; apply ref_in_ext, X1).
    destruct (IH _ _ _ _ _ E2 V2' I1) as ((X2 & I2) & R2 & G2 & K2 & C2). cbn [map fst snd].
    split; [split; [eapply extends_trans; eauto|exact I2]|].
    split; [constructor; [eapply ref_in_ext; eauto|exact R2]|]. split; [constructor; assumption|].
    split; [f_equal; exact K2|].
    intro n. f_equal; [|apply C2]. f_equal. destruct X2 as [x ->]. destruct I1 as (_ & W1 & _).
    rewrite !content_app; auto. eapply ref_in_ext; eauto.
Qed.
Lemma tagged_eq {A B} (f : A -> option B) l l' :
  map (fun p => (fst p, f (snd p))) l' = map (fun p => (fst p, f (snd p))) l -> tagged f l' = tagged f l.
Proof.
  intro H. unfold tagged. f_equal.
  assert (Q : forall l : list (string * A), map (fun p => match f (snd p) with Some b => Some (fst p, b) | None => None end) l
              = map (fun q : string * option B => match snd q with Some b => Some (fst q, b) | None => None end) (map (fun p => (fst p, f (snd p))) l)).
  { intro l0. rewrite map_map. reflexivity. }
  rewrite !Q, H. reflexivity.
Qed.
Lemma find_In a memo b : find a memo = Some b -> In (a, b) memo.
Proof.
  induction memo as [|[x y] r IH]; cbn; [discriminate|]. destruct (Nat.eqb_spec x a) as [->|]; [|auto].
  intro E; injection E as ->. auto.
Qed.
(** the object just allocated *)
Lemma nth_last (h : heap) o : nth_error (h ++ [o]) (length h) = Some o.
Proof. rewrite nth_error_app2, Nat.sub_diag by lia. reflexivity. Qed.

Lemma deepcopy_ok n0 fuel : rec_ok n0 (deepcopy fuel).
Proof.
  induction fuel as [|fuel IH]; intros h memo v h' memo' v' E V I; [discriminate|]. cbn [deepcopy] in E.
  destruct v as [z|a].
  { injection E as <- <- <-. repeat split; try apply I; cbn; auto using extends_refl. }
  destruct (find a memo) as [a'|] eqn:EF.
  { injection E as <- <- <-. apply find_In in EF. pose proof I as (L & W & F & M). rewrite Forall_forall in M.
    destruct (M _ EF) as (M1 & M2 & M3). cbn [fst snd] in *. repeat split; try apply I; cbn; auto using extends_refl; lia. }
  destruct (nth_error h a) as [o|] eqn:EO; [|discriminate].
  pose proof I as (L & W & F & M). pose proof (W a o EO) as VO. pose proof (nth_lt _ _ _ EO) as LA.
  (* the common end: object [x] holding copies was appended to [h1] *)
  assert (FIN : forall h1 m1 x, extends h h1 -> inv n0 h1 m1 -> Forall (memo_ok n0 h) memo ->
    Forall (ref_in (h1 ++ [x])) (held x) -> Forall (ge_ref n0) (held x) ->
    (forall n, content (S n) (h1 ++ [x]) (VRef (length h1)) = content (S n) (h1 ++ [x]) (VRef a)) ->
    forall m2, (m2 = m1 \/ m2 = memo) ->
    good n0 h (h1 ++ [x]) ((a, length h1) :: m2) /\ ref_in (h1 ++ [x]) (VRef (length h1)) /\
    ge_ref n0 (VRef (length h1)) /\ forall n, content n (h1 ++ [x]) (VRef (length h1)) = content n (h1 ++ [x]) (VRef a)).
  { intros h1 m1 x X1 I1 M0 R1 G1 C1 m2 Hm. pose proof (inv_alloc _ _ _ _ I1 R1 G1) as I2.
    assert (C2 : forall n, content n (h1 ++ [x]) (VRef (length h1)) = content n (h1 ++ [x]) (VRef a)) by (intros [|n]; [reflexivity|apply C1]).
    destruct I2 as (L2 & W2 & F2 & M2).
    assert (X2 : extends h (h1 ++ [x])) by (eapply extends_trans; [exact X1|exists [x]; reflexivity]).
    assert (LL : length h <= length h1) by (destruct X1 as [y ->]; rewrite app_length; lia).
    split; [|split; [|split; [|exact C2]]].
    - split; [exact X2|]. split; [exact L2|]. split; [exact W2|]. split; [exact F2|]. constructor.
      + unfold memo_ok. cbn [fst snd]. rewrite app_length. cbn [length]. repeat split; try lia. exact C2.
      + destruct Hm as [->| ->]; [exact M2|]. eapply Forall_impl; [|exact M0]. intro p. apply memo_ext; assumption.
    - cbn. rewrite app_length. cbn. lia.
    - cbn. lia. }
  assert (CA : forall h1 x n, extends h h1 -> content (S n) (h1 ++ [x]) (VRef a) =
     match o with
     | OList l => option_map TList (opts (map (content n (h1 ++ [x])) l))
     | ODict kv => option_map TDict (tagged (content n (h1 ++ [x])) kv)
     | OBunch kv _ => option_map TBunch (tagged (content n (h1 ++ [x])) kv) end).
  { intros h1 x n [y ->]. cbn [content]. rewrite <- app_assoc, nth_error_app1, EO by exact LA. reflexivity. }
  destruct o as [l|kv|kv s]; cbn [held] in VO.
  - destruct (deep_list (deepcopy fuel) h memo l) as [[[h1 m1] l']|] eqn:ED; [|discriminate]. injection E as <- <- <-.
    destruct (deep_list_ok n0 _ IH _ _ _ _ _ _ ED VO I) as ((X1 & I1) & R1 & G1 & C1). pose proof I1 as (_ & W1 & _).
    assert (XX : extends h1 (h1 ++ [OList l'])) by (eexists; reflexivity).
    apply (FIN h1 m1 (OList l')); auto.
    + cbn [held]. eapply Forall_impl; [|exact R1]. intro; apply ref_in_ext, XX.
    + intro n. rewrite (CA _ _ n X1). cbn [content]. rewrite nth_last. f_equal. f_equal.
      assert (Q : forall l0, Forall (ref_in h1) l0 -> map (content n (h1 ++ [OList l'])) l0 = map (content n h1) l0).
      { intros l0 H0. apply map_ext_in. intros u HU. rewrite Forall_forall in H0. apply content_app; auto. }
      rewrite !Q; auto. eapply Forall_impl; [|exact VO]. intro; apply ref_in_ext, X1.
  - destruct (deep_items (deepcopy fuel) h memo kv) as [[[h1 m1] l']|] eqn:ED; [|discriminate]. injection E as <- <- <-.
    destruct (deep_items_ok n0 _ IH _ _ _ _ _ _ ED VO I) as ((X1 & I1) & R1 & G1 & _ & C1). pose proof I1 as (_ & W1 & _).
    assert (XX : extends h1 (h1 ++ [ODict l'])) by (eexists; reflexivity).
    apply (FIN h1 m1 (ODict l')); auto.
    + cbn [held]. eapply Forall_impl; [|exact R1]. intro; apply ref_in_ext, XX.
    + intro n. rewrite (CA _ _ n X1). cbn [content]. rewrite nth_last. f_equal. apply tagged_eq.
      assert (Q : forall l0, Forall (ref_in h1) (map snd l0) ->
        map (fun p : string * value => (fst p, content n (h1 ++ [ODict l']) (snd p))) l0 = map (fun p => (fst p, content n h1 (snd p))) l0).
      { intros l0 H0. apply map_ext_in. intros u HU. f_equal. rewrite Forall_forall in H0. apply content_app; auto. apply H0, in_map, HU. }
      rewrite !Q; auto. eapply Forall_impl; [|exact VO]. intro; apply ref_in_ext, X1.
  - destruct (deep_items (deepcopy fuel) h [] kv) as [[[h1 m1] l']|] eqn:ED; [|discriminate].
    unfold bunch_new in E. destruct (existsb _ l'); [discriminate|]. injection E as <- <- <-.
    inversion VO as [|? ? VS VK]; subst.
    assert (I0 : inv n0 h []) by (repeat split; auto).
    destruct (deep_items_ok n0 _ IH _ _ _ _ _ _ ED VK I0) as ((X1 & I1) & R1 & G1 & _ & C1). pose proof I1 as (L1 & W1 & _).
    set (x := OBunch l' (length h1)). assert (XX : extends h1 (h1 ++ [x])) by (eexists; reflexivity).
    apply (FIN h1 m1 x); auto.
    + cbn [held x]. constructor; [cbn; rewrite app_length; cbn; lia|]. eapply Forall_impl; [|exact R1]. intro; apply ref_in_ext, XX.
    + cbn [held x]. constructor; [cbn; lia|exact G1].
    + intro n. rewrite (CA _ _ n X1). cbn [content]. rewrite nth_last. unfold x at 1. f_equal. apply tagged_eq.
      assert (Q : forall l0, Forall (ref_in h1) (map snd l0) ->
        map (fun p : string * value => (fst p, content n (h1 ++ [x]) (snd p))) l0 = map (fun p => (fst p, content n h1 (snd p))) l0).
      { intros l0 H0. apply map_ext_in. intros u HU. f_equal. rewrite Forall_forall in H0. apply content_app; auto. apply H0, in_map, HU. }
      rewrite !Q; auto. eapply Forall_impl; [|exact VK]. intro; apply ref_in_ext, X1.
Qed.

Lemma reach_fresh n0 h v b : fresh_from n0 h -> reach h v b -> ge_ref n0 v -> n0 <= b.
Proof.
  intros F R. induction R as [a|a o v b E HI R IH]; intro G; [exact G|]. apply IH.
  pose proof (F a o G E) as FO. rewrite Forall_forall in FO. apply FO, HI.
Qed.
Lemma reach_old h x v b : well_formed h -> reach (h ++ x) v b -> ref_in h v -> b < length h.
Proof.
  intros W R. induction R as [a|a o v b E HI R IH]; intro G; [exact G|]. apply IH.
  cbn in G. rewrite nth_error_app1 in E by exact G. pose proof (W a o E) as FO. rewrite Forall_forall in FO. apply FO, HI.
Qed.

(** a set of objects whose Bunches keep their attributes inside the set *)
Definition closed_slots (P : nat -> Prop) (h : heap) : Prop := forall a kv s, P a -> nth_error h a = Some (OBunch kv s) -> P s.
Lemma run_inside (P : nat -> Prop) ops : forall h, Forall keeps_dict ops -> Forall (fun o => P (fst o)) ops -> closed_slots P h ->
  forall b, ~ P b -> nth_error (run h ops) b = nth_error h b.
Proof.
  induction ops as [|o ops IH]; intros h K T C b NB; [reflexivity|]. change (run h (o :: ops)) with (run (step h o) ops).
  inversion K as [|? ? K1 K2]; subst. inversion T as [|? ? T1 T2]; subst.
  rewrite (IH _ K2 T2); [|  |exact NB].
  - apply step_local; [assumption|]. intros c [Q|(kv & E)] Q'; subst; [auto|]. apply NB. eapply C; eauto.
  - intros a kv s PA E. destruct (step_cases h o K1) as [Q|(c & y & y' & _ & H1 & H2 & Q)]; rewrite Q in E; [eapply C; eauto|].
    destruct (Nat.eq_dec c a) as [->|N].
    + rewrite upd_same in E by (eapply nth_lt; eauto). injection E as ->. destruct y as [|kv'|kv' s']; try contradiction.
      cbn in H2. subst s'. eapply C; eauto.
    + rewrite upd_other in E by (eauto using nth_lt). eapply C; eauto.
Qed.

Theorem C59_deepcopy : forall fuel h a h' memo v,
  well_formed h -> a < length h -> deepcopy fuel h [] (VRef a) = Some (h', memo, v) ->
  (* nothing that existed is changed, the copy has the same content, and shares nothing with the old objects *)
  (forall b, b < length h -> nth_error h' b = nth_error h b) /\
  (forall n, content n h' v = content n h (VRef a)) /\
  (forall b, reach h' v b -> length h <= b) /\
  (* whatever is done afterwards to the one does not show in the other *)
  forall ops, Forall keeps_dict ops ->
    (Forall (fun o => reach h' v (fst o)) ops ->
       forall b, reach h' (VRef a) b -> nth_error (run h' ops) b = nth_error h' b) /\
    (Forall (fun o => reach h' (VRef a) (fst o)) ops ->
       forall b, reach h' v b -> nth_error (run h' ops) b = nth_error h' b).
Proof.
  intros fuel h a h' memo v W L E.
  assert (I : inv (length h) h []).
  { repeat split; auto. intros b o Q N. apply nth_lt in N. lia. }
  destruct (deepcopy_ok (length h) fuel h [] (VRef a) h' memo v E L I) as ((X & I') & R & G & C).
  destruct I' as (L' & W' & F' & _). destruct X as [x ->].
  assert (C0 : forall n, content n (h ++ x) v = content n h (VRef a)).
  { intro n. rewrite C. apply content_app; auto. }
  split; [intros b Hb; apply nth_error_app1, Hb|]. split; [exact C0|].
  split; [intros b Hb; eapply reach_fresh; eauto|].
  intros ops K. split; intros T b Hb.
  - apply (run_inside (fun b => length h <= b)); auto.
    + eapply Forall_impl; [|exact T]. intros o. cbn. intro HO. eapply reach_fresh; eauto.
    + intros c kv s PC EC. pose proof (F' c _ PC EC) as FO. inversion FO; subst. assumption.
    + apply (reach_old h x (VRef a) b W) in Hb; [lia|exact L].
  - apply (run_inside (fun b => b < length h)); auto.
    + eapply Forall_impl; [|exact T]. intros o. cbn. intro HO. eapply reach_old; eauto.
    + intros c kv s PC EC. rewrite nth_error_app1 in EC by exact PC. pose proof (W c _ EC) as FO. inversion FO; subst. assumption.
    + pose proof (reach_fresh _ _ _ _ F' Hb G). lia.
Qed.

(** ** it ends on data without cycles, and does not on a Bunch that contains itself *)
Lemma opts_Some {A} (l : list (option A)) r : opts l = Some r -> Forall2 (fun o a => o = Some a) l r.
Proof.
  revert r; induction l as [|[a|] l IH]; intros r H; cbn in H; try discriminate.
  - injection H as <-. constructor.
  - destruct (opts l) as [r'|]; [|discriminate]. injection H as <-. constructor; auto.
Qed.
Lemma deepcopy_ends n0 n : forall h memo v t,
  inv n0 h memo -> ref_in h v -> content n h v = Some t -> no_self t ->
  exists h' memo' v', deepcopy n h memo v = Some (h', memo', v').
Proof.
  induction n as [|n IH]; intros h memo v t I V C NS; [discriminate|]. cbn [deepcopy].
  destruct v as [z|a]; [eauto|]. destruct (find a memo); [eauto|]. cbn [content] in C.
  destruct (nth_error h a) as [o|] eqn:EO; [|discriminate]. pose proof I as (L & W & F & M). pose proof (W a o EO) as VO.
  assert (DL : forall l ts, Forall2 (fun v t => content n h v = Some t) l ts -> Forall no_self ts -> Forall (ref_in h) l ->
     forall h1 m1, extends h h1 -> inv n0 h1 m1 -> exists h' m' l', deep_list (deepcopy n) h1 m1 l = Some (h', m', l')).
  { induction 1 as [|u t0 l ts HU _ IHl]; intros NT VT h1 m1 X1 I1; cbn; [eauto|].
    inversion NT as [|? ? NT1 NT2]; subst. inversion VT as [|? ? VT1 VT2]; subst.
    assert (V1 : ref_in h1 u) by (eapply ref_in_ext; eauto).
    assert (C1 : content n h1 u = Some t0) by (destruct X1 as [x ->]; rewrite content_app; auto).
    destruct (IH h1 m1 u t0 I1 V1 C1 NT1) as (h2 & m2 & u' & ED). rewrite ED.
    destruct (deepcopy_ok n0 n _ _ _ _ _ _ ED V1 I1) as ((X2 & I2) & _).
    destruct (IHl NT2 VT2 h2 m2 (extends_trans _ _ _ X1 X2) I2) as (h3 & m3 & l' & EL). rewrite EL. eauto. }
  assert (DI : forall (l : items) (ts : list (string * tree)), Forall2 (fun p q => fst q = fst p /\ content n h (snd p) = Some (snd q)) l ts ->
     Forall (fun q => no_self (snd q)) ts -> Forall (ref_in h) (map snd l) ->
     forall h1 m1, extends h h1 -> inv n0 h1 m1 -> exists h' m' l', deep_items (deepcopy n) h1 m1 l = Some (h', m', l') /\ map fst l' = map fst l).
  { induction 1 as [|[k u] [k' t0] l ts HU _ IHl]; intros NT VT h1 m1 X1 I1; cbn; [eauto|].
    inversion NT as [|? ? NT1 NT2]; subst. inversion VT as [|? ? VT1 VT2]; subst. cbn in *. destruct HU as [_ HU].
    assert (V1 : ref_in h1 u) by (eapply ref_in_ext; eauto).
    assert (C1 : content n h1 u = Some t0) by (destruct X1 as [x ->]; rewrite content_app; auto).
    destruct (IH h1 m1 u t0 I1 V1 C1 NT1) as (h2 & m2 & u' & ED). rewrite ED.
    destruct (deepcopy_ok n0 n _ _ _ _ _ _ ED V1 I1) as ((X2 & I2) & _).
    destruct (IHl NT2 VT2 h2 m2 (extends_trans _ _ _ X1 X2) I2) as (h3 & m3 & l' & EL & KL). rewrite EL.
    exists h3, m3, ((k, u') :: l'). cbn. rewrite KL. auto. }
  assert (TG : forall (kv : items) r, tagged (content n h) kv = Some r ->
     Forall2 (fun p q => fst q = fst p /\ content n h (snd p) = Some (snd q)) kv r).
  { intros kv0 r HT. unfold tagged in HT. apply opts_Some in HT. revert r HT. induction kv0 as [|[k u] kv0 IHk]; intros r HT; inversion HT; subst; constructor.
    - cbn in *. destruct (content n h u); [|discriminate]. match goal with H : Some _ = Some _ |- _ => injection H as <- end. auto.
    - apply IHk. assumption. }
  destruct o as [l|kv|kv s]; cbn [held] in VO.
  - destruct (opts (map (content n h) l)) as [ts|] eqn:EP; [|discriminate]. cbn in C. injection C as <-.
    apply opts_Some in EP.
    assert (F2 : Forall2 (fun v t => content n h v = Some t) l ts).
    { clear -EP. revert ts EP. induction l; intros ts EP; inversion EP; subst; constructor; auto. }
    assert (NT : Forall no_self ts).
    { clear -NS. cbn in NS. induction ts; constructor; destruct NS; auto. }
    destruct (DL l ts F2 NT VO h memo (extends_refl h) I) as (h1 & m1 & l' & ->). cbn. eauto.
  - destruct (tagged (content n h) kv) as [ts|] eqn:EP; [|discriminate]. cbn in C. injection C as <-.
    assert (NT : Forall (fun q => no_self (snd q)) ts).
    { clear -NS. cbn in NS. induction ts as [|[k t] ts IH]; constructor; cbn in *; destruct NS; auto. }
    destruct (DI kv ts (TG _ _ EP) NT VO h memo (extends_refl h) I) as (h1 & m1 & l' & -> & _). cbn. eauto.
  - destruct (tagged (content n h) kv) as [ts|] eqn:EP; [|discriminate]. cbn in C. injection C as <-.
    assert (NT : Forall (fun q => no_self (snd q)) ts /\ Forall (fun q => fst q <> "self") ts).
    { clear -NS. cbn in NS. induction ts as [|[k t] ts IH]; split; constructor; cbn in *; try apply IH; tauto. }
    destruct NT as [NT NK]. inversion VO as [|? ? VS VK]; subst.
    assert (I0 : inv n0 h []) by (repeat split; auto).
    destruct (DI kv ts (TG _ _ EP) NT VK h [] (extends_refl h) I0) as (h1 & m1 & l' & -> & KL).
    unfold bunch_new.
    assert (EX : existsb (fun p : string * value => String.eqb (fst p) "self") l' = false).
    { assert (KT : map fst ts = map fst kv).
      { apply TG in EP. clear -EP. induction EP as [|? ? ? ? [Q _]]; cbn; congruence. }
      destruct (existsb _ l') eqn:EX; [|reflexivity]. exfalso. apply existsb_exists in EX as (p & HP & EQ).
      apply String.eqb_eq in EQ. apply (in_map fst) in HP. rewrite KL, <- KT, EQ in HP.
      apply in_map_iff in HP as (q & EQ' & HQ). rewrite Forall_forall in NK. apply (NK q HQ), EQ'. }
    rewrite EX. eauto.
Qed.
Theorem C59_deepcopy_ends : forall n h a t,
  well_formed h -> content n h (VRef a) = Some t -> no_self t ->
  exists h' memo v, deepcopy n h [] (VRef a) = Some (h', memo, v).
Proof.
  intros n h a t W C NS. assert (L : a < length h).
  { destruct n; [discriminate|]. cbn in C. destruct (nth_error h a) eqn:E; [|discriminate]. eapply nth_lt; eauto. }
  eapply (deepcopy_ends (length h)); eauto.
  repeat split; auto. intros b o Q N. apply nth_lt in N. lia.
Qed.
Theorem C59_deepcopy_cycle : forall h a kv k, nth_error h a = Some (OBunch ((k, VRef a) :: kv) a) ->
  forall fuel memo, find a memo = None -> deepcopy fuel h memo (VRef a) = None.
Proof.
  intros h a kv k H. induction fuel as [|fuel IH]; intros memo M; [reflexivity|]. cbn [deepcopy]. rewrite M, H. cbn [deep_items].
  rewrite (IH [] eq_refl). reflexivity.
Qed.
(** two items that were one list inside a nested Bunch and outside of it are two lists in the copy *)
Theorem C59_deepcopy_sharing_refuted : exists h a i x fuel h' memo v v1 v2 b i',
  well_formed h /\ get_item h a "x" = Ok (VRef x) /\ get_item h a "inner" = Ok (VRef i) /\ get_item h i "x" = Ok (VRef x) /\
  deepcopy fuel h [] (VRef a) = Some (h', memo, v) /\ v = VRef b /\
  get_item h' b "x" = Ok v1 /\ get_item h' b "inner" = Ok (VRef i') /\ get_item h' i' "x" = Ok v2 /\ v1 <> v2.
Proof.
  exists [OList [VAtom 1]; OBunch [("x", VRef 0)] 1; OBunch [("x", VRef 0); ("inner", VRef 1)] 2], 2, 1, 0, 4.
  eexists _, _, _, _, _, _, _. split.
  { intros [|[|[|[|]]]] o E; cbn in E; try discriminate; injection E as <-; repeat constructor; cbn; auto with arith. }
  split; [reflexivity|]. split; [reflexivity|]. split; [reflexivity|]. split; [reflexivity|]. split; [reflexivity|].
  split; [reflexivity|]. split; [reflexivity|]. split; [reflexivity|]. discriminate.
Qed.

(** ** the hypotheses are met *)
Definition ex_heap : heap := [OList [VAtom 1]; OBunch [("x", VRef 0)] 1; OBunch [("x", VRef 0); ("inner", VRef 1)] 2].
Example C59_met_access : exists h a, bunch_new ex_heap [("a", VAtom 1); ("b", VRef 0)] = Ok (h, a) /\
  let h' := run h [(a, BSetAttr "c" (VAtom 3)); (a, BDelItem "a"); (a, BUpdate [("b", VAtom 5)]); (a, BDelAttr "c"); (a, BSetItem "d" (VAtom 4))] in
  get_attr h' a "d" = Ok (AStored (VAtom 4)) /\ get_attr h' a "b" = Ok (AStored (VAtom 5)) /\ get_item h' a "b" = Ok (VAtom 5) /\
  get_item h' a "c" = Err KeyError /\ get_attr h' a "c" = Err AttributeError /\ get_item h' a "keys" = Err KeyError /\ get_attr h' a "keys" = Ok AType.
Proof. eexists _, _. split; [reflexivity|]. cbv zeta. repeat split. Qed.
Example C59_met_deep : well_formed ex_heap /\ (exists t, content 4 ex_heap (VRef 2) = Some t /\ no_self t) /\
  nth_error ex_heap 2 = Some (OBunch [("x", VRef 0); ("inner", VRef 1)] 2) /\ exists r, bunch_copy ex_heap 2 = Ok r.
Proof.
  split.
  { intros [|[|[|[|]]]] o E; cbn in E; try discriminate; injection E as <-; repeat constructor; cbn; auto with arith. }
  split; [|split; [reflexivity|eexists; reflexivity]].
  eexists. split; [reflexivity|]. cbn. repeat split; discriminate.
Qed.

Print Assumptions C59_access_agrees.
Print Assumptions C59_write_read.
Print Assumptions C59_reserved_refuted.
Print Assumptions C59_copy_independent.
Print Assumptions C59_copy_shares.
Print Assumptions C59_copy_self_refuted.
Print Assumptions C59_deepcopy.
Print Assumptions C59_deepcopy_ends.
Print Assumptions C59_deepcopy_cycle.
Print Assumptions C59_deepcopy_sharing_refuted.
