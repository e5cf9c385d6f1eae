(** Proofs about calc_radiation_stats. *)
From Coq Require Import String ZArith List Bool Reals Lia Sorted.
From Verif Require Import Py Num Cal Series Trans UtilModel UtilModel2 Frame TempModel RadModel SpecBase SpecUtil SpecTemp SpecRad CourseProofs.
Import ListNotations.
Open Scope string_scope.
Open Scope Z_scope.
Open Scope list_scope.

Lemma mem_In k l : mem k l = true <-> In k l.
Proof. unfold mem. rewrite existsb_exists. split; [intros (x & H & E); apply Z.eqb_eq in E; subst; exact H|intro H; exists k; rewrite Z.eqb_refl; auto]. Qed.

Lemma lookup_set_row m k v tbl : lookup m (set_row k v tbl) = if k =? m then Some v else lookup m tbl.
Proof.
  induction tbl as [|[j w] tbl IH]; [reflexivity|]. cbn [set_row]. destruct (Z.eqb_spec j k) as [->|N]; cbn [lookup].
  - destruct (k =? m); reflexivity.
  - rewrite IH. destruct (Z.eqb_spec j m) as [->|]; [|reflexivity]. destruct (Z.eqb_spec k m); [congruence|reflexivity].
Qed.
Lemma lookup_set_months m ms v tbl : lookup m (set_months ms v tbl) = if mem m ms then Some v else lookup m tbl.
Proof.
  unfold set_months. revert tbl. induction ms as [|k ms IH]; intro tbl; [reflexivity|]. cbn [fold_left]. rewrite IH, lookup_set_row. cbn [mem existsb].
  rewrite (Z.eqb_sym m k). destruct (k =? m); cbn [orb]; [|reflexivity]. unfold mem. destruct (existsb (Z.eqb m) ms); reflexivity.
Qed.

(** the loop: the ranges before the first failing one have been stored *)
Lemma fit_loop_spec fit ranges : NoDup (concat ranges) -> forall tbl tbl' err, fit_loop fit ranges tbl = (tbl', err) ->
  exists done rest, ranges = done ++ rest /\
    (match err with None => rest = [] | Some x => exists ms r, rest = ms :: r /\ fit ms = Err x end) /\
    (forall ms, In ms done -> exists v, fit ms = Ok v /\ forall m, In m ms -> lookup m tbl' = Some v) /\
    (forall m, ~ In m (concat done) -> lookup m tbl' = lookup m tbl).
Proof.
  induction ranges as [|ms ranges IH]; intros ND tbl tbl' err E.
  - cbn in E. injection E as <- <-. exists [], []. repeat split. intros ms [].
  - cbn [fit_loop] in E. destruct (fit ms) as [v|x] eqn:EF.
    + cbn [concat] in ND. assert (ND' : NoDup (concat ranges)) by (clear -ND; induction ms; [exact ND|]; inversion ND; auto).
      assert (DJ : forall m, In m ms -> ~ In m (concat ranges)).
      { clear -ND. induction ms as [|k ms IH]; intros m Hm; [destruct Hm|]. inversion ND as [|? ? NI ND1]; subst.
        destruct Hm as [->|Hm]; [|apply IH; assumption]. intro H. apply NI. apply in_app_iff. right. exact H. }
      destruct (IH ND' _ _ _ E) as (dn & rest & -> & HE & HD & HU). exists (ms :: dn), rest. split; [reflexivity|]. split; [exact HE|]. split.
      * intros ms' [<-|Hm]; [|apply HD; exact Hm]. exists v. split; [exact EF|]. intros m Hm. rewrite HU, lookup_set_months.
        -- assert (Q : mem m ms = true) by (apply mem_In; exact Hm). rewrite Q. reflexivity.
        -- intro H. apply (DJ m Hm). rewrite concat_app. apply in_app_iff. left. exact H.
      * intros m Hm. cbn [concat] in Hm. rewrite in_app_iff in Hm. rewrite HU by tauto. rewrite lookup_set_months.
        destruct (mem m ms) eqn:Q; [apply mem_In in Q; tauto|reflexivity].
    + injection E as <- <-. exists [], (ms :: ranges). split; [reflexivity|]. split; [eauto|]. split; [intros ms' []|reflexivity].
Qed.

Lemma month_ranges_groups how : fst (month_ranges how) = month_groups how.
Proof. unfold month_ranges, month_groups. destruct (String.eqb how "all"); [reflexivity|]. destruct (String.eqb how "seasonal"); reflexivity. Qed.
Lemma month_ranges_once how : snd (month_ranges how) = negb (String.eqb how "all") && negb (String.eqb how "seasonal").
Proof. unfold month_ranges. destruct (String.eqb how "all"); [reflexivity|]. destruct (String.eqb how "seasonal"); reflexivity. Qed.
Lemma month_groups_nodup how : NoDup (concat (month_groups how)).
Proof.
  unfold month_groups. destruct (String.eqb how "all"); [|destruct (String.eqb how "seasonal")]; cbn [concat app];
  repeat (constructor; [cbn [In]; intuition congruence|]); constructor.
Qed.
Lemma month_groups_all how m : In m (concat (month_groups how)) <-> 1 <= m <= 12.
Proof.
  unfold month_groups. destruct (String.eqb how "all"); [|destruct (String.eqb how "seasonal")]; cbn [concat app In]; split; intro H;
  repeat (destruct H as [H|H]; [lia|]); try contradiction; try lia.
Qed.

(** the joined rows *)
Lemma zinsert_In x y l : In y (zinsert x l) <-> y = x \/ In y l.
Proof.
  induction l as [|z l IH]; cbn [zinsert]; [cbn; intuition congruence|]. destruct (x <? z); [cbn; intuition congruence|].
  destruct (Z.eqb_spec x z); [subst; cbn; intuition congruence|]. cbn [In]. rewrite IH. intuition congruence.
Qed.
Lemma zinsert_sorted x l : StronglySorted Z.lt l -> StronglySorted Z.lt (zinsert x l).
Proof.
  induction l as [|z l IH]; intro H; cbn [zinsert]; [repeat constructor|]. inversion H as [|? ? H1 H2]; subst.
  destruct (Z.ltb_spec x z); [constructor; [exact H|]; constructor; [assumption|]; rewrite Forall_forall in *; intros y Hy; specialize (H2 y Hy); lia|].
  destruct (Z.eqb_spec x z); [exact H|]. constructor; [apply IH; assumption|]. rewrite Forall_forall in *. intros y Hy. apply zinsert_In in Hy as [->|Hy]; [lia|auto].
Qed.
Definition labels_of (l : list Z) : list Z := fold_right zinsert [] l.
Lemma labels_In x l : In x (labels_of l) <-> In x l.
Proof. induction l as [|y l IH]; [reflexivity|]. cbn [labels_of fold_right]. rewrite zinsert_In. fold (labels_of l). rewrite IH. cbn. intuition congruence. Qed.
Lemma labels_sorted l : StronglySorted Z.lt (labels_of l).
Proof. induction l as [|y l IH]; [constructor|]. apply zinsert_sorted, IH. Qed.

Lemma lookup_index {A} t (s : list (Z * A)) v : lookup t s = Some v -> In t (map fst s).
Proof. induction s as [|[u w] s IH]; cbn; [discriminate|]. destruct (Z.eqb_spec u t); [left; assumption|]. intro H. right. apply IH, H. Qed.
Lemma lookup_filter_key {A} (P : Z -> bool) t (s : list (Z * A)) : lookup t (filter (fun p => P (fst p)) s) = if P t then lookup t s else None.
Proof.
  induction s as [|[u v] s IH]; cbn [filter lookup]; [destruct (P t); reflexivity|]. cbn [fst]. destruct (Z.eqb_spec u t) as [->|N].
  - destruct (P t) eqn:E; [cbn [lookup]; rewrite Z.eqb_refl; reflexivity|exact IH].
  - destruct (P u); [cbn [lookup]; destruct (Z.eqb_spec u t); [contradiction|]|]; exact IH.
Qed.
Lemma isnan_iff (x : xr) : n_isnan x = false <-> x <> NaN.
Proof. destruct x; cbn; split; intro H; try congruence; try discriminate. Qed.

Definition row_at (a b c d : series xr) (t : Z) : list row4 :=
  match lookup t a, lookup t b, lookup t c, lookup t d with
  | Some x, Some y, Some z, Some w => if n_isnan x || n_isnan y || n_isnan z || n_isnan w then [] else [(t, (x, y, z, w))]
  | _, _, _, _ => []
  end.
Lemma row_at_In a b c d t r : In r (row_at a b c d t) <-> exists x y z w, r = (t, (x, y, z, w)) /\
  lookup t a = Some x /\ lookup t b = Some y /\ lookup t c = Some z /\ lookup t d = Some w /\ x <> NaN /\ y <> NaN /\ z <> NaN /\ w <> NaN.
Proof.
  unfold row_at. destruct (lookup t a) as [x|]; [|split; [intros []|intros (?&?&?&?&H); intuition congruence]].
  destruct (lookup t b) as [y|]; [|split; [intros []|intros (?&?&?&?&H); intuition congruence]].
  destruct (lookup t c) as [z|]; [|split; [intros []|intros (?&?&?&?&H); intuition congruence]].
  destruct (lookup t d) as [w|]; [|split; [intros []|intros (?&?&?&?&H); intuition congruence]].
  destruct (n_isnan x || n_isnan y || n_isnan z || n_isnan w) eqn:E.
  - split; [intros []|]. intros (x' & y' & z' & w' & _ & A & B & C & D & N). injection A as ->. injection B as ->. injection C as ->. injection D as ->.
    destruct N as (N1 & N2 & N3 & N4). apply isnan_iff in N1, N2, N3, N4. rewrite N1, N2, N3, N4 in E. discriminate.
  - rewrite !orb_false_iff, !isnan_iff in E. split; [intros [<-|[]]; exists x, y, z, w; tauto|].
    intros (x' & y' & z' & w' & -> & A & B & C & D & _). left. congruence.
Qed.
Lemma join4_rows a b c d : join4 a b c d = flat_map (row_at a b c d) (labels_of (index a ++ index b ++ index c ++ index d)).
Proof. reflexivity. Qed.
Lemma join4_In a b c d t x y z w : In (t, (x, y, z, w)) (join4 a b c d) <->
  lookup t a = Some x /\ lookup t b = Some y /\ lookup t c = Some z /\ lookup t d = Some w /\ x <> NaN /\ y <> NaN /\ z <> NaN /\ w <> NaN.
Proof.
  rewrite join4_rows, in_flat_map. split.
  - intros (u & _ & H). apply row_at_In in H as (x' & y' & z' & w' & E & H). injection E as -> -> -> -> ->. exact H.
  - intro H. exists t. split.
    + apply labels_In. apply in_app_iff. left. destruct H as (H & _). apply lookup_index in H. exact H.
    + apply row_at_In. exists x, y, z, w. split; [reflexivity|exact H].
Qed.
Lemma rows_sorted {B} (f : Z -> list (Z * B)) l : (forall t, (forall r, In r (f t) -> fst r = t) /\ (length (f t) <= 1)%nat) ->
  StronglySorted Z.lt l -> StronglySorted Z.lt (map fst (flat_map f l)).
Proof.
  intros HF. induction 1 as [|t l SS IH FA]; [constructor|]. cbn [flat_map]. rewrite map_app. destruct (HF t) as [H1 H2].
  destruct (f t) as [|r [|r' q]]; [exact IH| |cbn in H2; lia]. cbn [map app]. rewrite (H1 r (or_introl eq_refl)). constructor; [exact IH|].
  rewrite Forall_forall in *. intros x Hx. apply in_map_iff in Hx as (p & <- & Hp). apply in_flat_map in Hp as (u & Hu & Hp). destruct (HF u) as [K _]. rewrite (K p Hp). apply FA, Hu.
Qed.
Lemma join4_sorted a b c d : StronglySorted Z.lt (map fst (join4 a b c d)).
Proof.
  rewrite join4_rows. apply rows_sorted; [|apply labels_sorted]. intro t. split.
  - intros r H. apply row_at_In in H as (x & y & z & w & -> & _). reflexivity.
  - unfold row_at. destruct (lookup t a), (lookup t b), (lookup t c), (lookup t d); cbn; try lia. destruct (_ || _); cbn; lia.
Qed.

Lemma angstroem_rows ms a b c d : complete_rows ms a b c d (join4 (extract_months a ms) (extract_months b ms) (extract_months c ms) (extract_months d ms)).
Proof.
  split; [apply join4_sorted|]. intros t x y z w. rewrite join4_In. unfold extract_months.
  rewrite !(lookup_filter_key (fun u => mem (month_of u) ms)). change (@entry_of xr) with (@lookup xr).
  destruct (mem (month_of t) ms) eqn:E.
  - apply mem_In in E. cbv beta iota. tauto.
  - assert (N : ~ In (month_of t) ms) by (rewrite <- mem_In, E; discriminate). split; [intros (H & _); discriminate|tauto].
Qed.
Lemma filter_sorted {B} (P : Z * B -> bool) (l : list (Z * B)) : StronglySorted Z.lt (map fst l) -> StronglySorted Z.lt (map fst (filter P l)).
Proof.
  induction l as [|p l IH]; intro H; [constructor|]. cbn [map] in H. inversion H as [|? ? H1 H2]; subst. cbn [filter]. destruct (P p); [|apply IH, H1].
  cbn [map]. constructor; [apply IH, H1|]. rewrite Forall_forall in *. intros x Hx. apply in_map_iff in Hx as (q & <- & Hq). apply filter_In in Hq as [Hq _]. apply H2, in_map, Hq.
Qed.
Lemma bristcamp_rows ms a b c d : complete_rows ms a b c d (filter (fun r => mem (month_of (fst r)) ms) (join4 a b c d)).
Proof.
  split; [apply filter_sorted, join4_sorted|]. intros t x y z w. rewrite filter_In, join4_In. change (@entry_of xr) with (@lookup xr). cbn [fst]. rewrite mem_In. tauto.
Qed.

Section Run.
  Variable curve_fit minimize_bias : list row4 -> res (xr * xr).
  Variables (e : env) (df dd : dframe xr) (glob : list xr) (hours : list Z) (lon lat tz : xr) (dl : option (series xr)) (how : string) (st : glob_stats).
  Hypothesis HOW : In how ["all"; "seasonal"; "monthly"].
  Hypothesis GLOB : assoc "glob" (f_cols df) = Some glob.
  Hypothesis HOURS : hourly_index e (f_index dd) = Ok hours.

  Let gl := combine (f_index df) glob.
  Let pot := resample us_day nanmean (potential_radiation hours lon lat tz n0 n0 n0).
  Let obs := resample us_day nanmean gl.
  Let run := calc_radiation_stats curve_fit minimize_bias e (Some df) (Some lon) (Some lat) (Some tz) (Some dd) dl how st.
  Let col (name : string) := match assoc name (f_cols dd) with Some v => combine (f_index dd) v | None => [] end.

  (** the whole computation with the four joins written out *)
  Lemma run_eq : run =
    let fa := fun ms => curve_fit (join4 (extract_months (col "ssd") ms) (extract_months (match dl with Some d => d | None => [] end) ms)
                                         (extract_months pot ms) (extract_months obs ms)) in
    let fb := fun ms => minimize_bias (filter (fun r => mem (month_of (fst r)) ms) (join4 (col "tmin") (col "tmax") pot obs)) in
    let sun := match assoc "ssd" (f_cols dd), dl with Some _, Some _ => true | _, _ => false end in
    let temp := match assoc "tmin" (f_cols dd), assoc "tmax" (f_cols dd) with Some _, Some _ => true | _, _ => false end in
    let '(ta, ea) := if sun then fit_loop fa (month_groups how) (g_angstroem st) else (g_angstroem st, None) in
    let c := Some (mean_course gl false) in
    match ea with
    | Some x => ({| g_course := c; g_angstroem := ta; g_bristcamp := g_bristcamp st |}, Some x)
    | None =>
        if temp then
          let '(tb, eb) := fit_loop fb (if sun && String.eqb how "monthly" then [] else month_groups how) (g_bristcamp st) in
          ({| g_course := c; g_angstroem := ta; g_bristcamp := tb |}, eb)
        else ({| g_course := c; g_angstroem := ta; g_bristcamp := g_bristcamp st |}, None)
    end.
  Proof.
    unfold run, calc_radiation_stats.
    assert (EH : negb (String.eqb how "all" || String.eqb how "seasonal" || String.eqb how "monthly") = false).
    { destruct HOW as [<-|[<-|[<-|[]]]]; reflexivity. }
    rewrite EH. unfold fcol at 1. rewrite GLOB, HOURS. cbv zeta. fold gl. fold pot. fold obs.
    pose proof (month_ranges_groups how) as MG. pose proof (month_ranges_once how) as MO.
    assert (MO' : snd (month_ranges how) = String.eqb how "monthly") by (rewrite MO; destruct HOW as [<-|[<-|[<-|[]]]]; reflexivity).
    clear MO. destruct (month_ranges how) as [ranges once]. cbn [fst snd] in MG, MO'. subst ranges once.
    unfold fcol, col. cbn [g_angstroem g_bristcamp g_course]. clear EH.
    destruct (assoc "ssd" (f_cols dd)) as [ss|], dl as [d|]; cbn [andb];
      try (destruct (assoc "tmin" (f_cols dd)), (assoc "tmax" (f_cols dd)); reflexivity).
    destruct (fit_loop _ (month_groups how) (g_angstroem st)) as [ta [x|]]; [reflexivity|].
    destruct (assoc "tmin" (f_cols dd)), (assoc "tmax" (f_cols dd)); reflexivity.
  Qed.
End Run.
