(** detect_gaps, drop_incomplete_days. *)
From Coq Require Import ZArith List Bool Lia Sorted.
From Verif Require Import Py Num Cal Series UtilModel UtilModel2 SpecBase SpecUtil TimeProofs IndexProofs.
Import ListNotations.
Open Scope Z_scope.

(** ** detect_gaps *)
Lemma irregular_cons step a b r : irregular step (a :: b :: r) = (if b - a =? step then 0 else 1) + irregular step (b :: r).
Proof. reflexivity. Qed.
Lemma irregular_nonneg step l : 0 <= irregular step l.
Proof.
  induction l as [|a [|b r] IH]; [reflexivity|reflexivity|]. rewrite irregular_cons. destruct (_ =? _); lia.
Qed.
Lemma irregular_zero step : forall l a, irregular step (a :: l) = 0 <-> a :: l = grid a step (S (length l)).
Proof.
  induction l as [|b r IH]; intro a.
  - split; [|reflexivity]. intros _. rewrite grid_S. reflexivity.
  - rewrite irregular_cons, grid_S. pose proof (irregular_nonneg step (b :: r)). split.
    + intro H1. destruct (Z.eqb_spec (b - a) step) as [E|NE]; [|lia]. f_equal. cbn [length].
      replace (a + step) with b by lia. apply IH. lia.
    + intro H0. pose proof (f_equal (@tl Z) H0) as H1. cbn [tl length] in H1.
      assert (b = a + step) as -> by (rewrite grid_S in H1; exact (f_equal (hd 0) H1)).
      apply (IH (a + step)) in H1. rewrite H1. replace (a + step - a) with step by lia. rewrite Z.eqb_refl. reflexivity.
Qed.
Lemma listed_app a b : listed (a ++ b) = listed a + listed b.
Proof. unfold listed. rewrite filter_app, app_length. lia. Qed.
Lemma claims_app a b : claims_incomplete (a ++ b) = claims_incomplete a || claims_incomplete b.
Proof. unfold claims_incomplete. apply existsb_app. Qed.

Lemma gaps_loop_quiet e step pa pm : has_timedelta_delta e = true -> forall rest prev g m w out,
  gaps_loop e step pa pm false prev rest g m w out = Ok (g + irregular step (prev :: rest), out).
Proof.
  intro HE. induction rest as [|t r IH]; intros prev g m w out; cbn [gaps_loop].
  - cbn [irregular]. rewrite Z.add_0_r. reflexivity.
  - rewrite HE, irregular_cons. destruct (_ =? step); cbn zeta.
    + rewrite IH. do 2 f_equal.
    + rewrite !andb_false_r. cbn [andb]. rewrite IH. do 2 f_equal; lia.
Qed.

Lemma gaps_loop_ok e step pa pm : has_timedelta_delta e = true -> forall rest prev g m w out,
  exists out', gaps_loop e step pa pm true prev rest g m w out = Ok (g + irregular step (prev :: rest), out') /\
    listed out' = listed out + (if pa then irregular step (prev :: rest)
                                else Z.min (irregular step (prev :: rest)) (Z.max 0 (pm - m))) /\
    (w = claims_incomplete out -> m < pm \/ w = true ->
     claims_incomplete out' = (pm <=? m + irregular step (prev :: rest)) || w).
Proof.
  intro HE. induction rest as [|t r IH]; intros prev g m w out.
  - cbn [gaps_loop irregular]. exists (out ++ [Total g]). rewrite Z.add_0_r. split; [reflexivity|].
    split.
    + rewrite listed_app. change (listed [Total g]) with 0. destruct pa; lia.
    + intros -> H. rewrite Z.add_0_r, claims_app. cbn [claims_incomplete existsb]. rewrite orb_false_r. change (existsb _ out) with (claims_incomplete out).
      destruct (claims_incomplete out); [rewrite orb_true_r; reflexivity|]. destruct H as [H|H]; [|discriminate].
      replace (pm <=? m) with false by (symmetry; apply Z.leb_gt; lia). reflexivity.
  - cbn [gaps_loop]. rewrite HE, irregular_cons. destruct (Z.eqb_spec (t - prev) step) as [EQ|NE].
    + destruct (IH t g m w out) as (out' & E & L & C). exists out'. rewrite Z.add_0_l. auto.
    + set (show := pa || (m <=? pm - 1)). set (out1 := if show && true then _ else _).
      set (m1 := if show then m + 1 else m). set (note := (m1 =? pm) && true && negb w).
      pose proof (irregular_nonneg step (t :: r)) as NN.
      destruct (IH t (g + 1) m1 (w || note) (if note then out1 ++ [OnlyFirst m1] else out1)) as (out' & E & L & C).
      exists out'. split; [rewrite E; do 2 f_equal; lia|]. split.
      * rewrite L. replace (listed (if note then out1 ++ [OnlyFirst m1] else out1)) with (listed out1)
          by (destruct note; [rewrite listed_app; cbn|]; lia).
        unfold out1, m1, show. rewrite andb_true_r.
        destruct pa; cbn [orb]; [rewrite listed_app; change (listed [_]) with 1; lia|].
        destruct (Z.leb_spec m (pm - 1)); [rewrite listed_app; change (listed [_]) with 1; lia|lia].
      * intros Hw Hm.
        assert (CO : claims_incomplete out1 = claims_incomplete out).
        { unfold out1. destruct (show && true); [rewrite claims_app; cbn; apply orb_false_r|reflexivity]. }
        assert (CN : w || note = claims_incomplete (if note then out1 ++ [OnlyFirst m1] else out1)).
        { rewrite Hw. destruct note; [rewrite claims_app; cbn; rewrite !orb_true_r; reflexivity|]. rewrite orb_false_r, CO. reflexivity. }
        destruct w.
        -- rewrite (C CN (or_intror eq_refl)). cbn [orb]. rewrite !orb_true_r. reflexivity.
        -- destruct Hm as [Hm|Hm]; [|discriminate].
           assert (SH : show = true) by (unfold show; replace (m <=? pm - 1) with true by (symmetry; apply Z.leb_le; lia); apply orb_true_r).
           unfold m1 in *. rewrite SH in *. cbn [orb] in *. rewrite (C CN).
           ++ unfold note. rewrite SH, orb_false_r. cbn [negb]. rewrite !andb_true_r.
              destruct (Z.eqb_spec (m + 1) pm), (Z.leb_spec pm (m + 1 + irregular step (t :: r))), (Z.leb_spec pm (m + (1 + irregular step (t :: r)))); cbn [orb]; try reflexivity; try lia.
           ++ destruct (Z.eq_dec (m + 1) pm) as [<-|NQ]; [|left; lia].
              right. unfold note. rewrite SH, Z.eqb_refl. reflexivity.
Qed.

Lemma detect_gaps_count e step pa pm v idx : has_timedelta_delta e = true ->
  exists out, detect_gaps e step pa pm v idx = Ok (irregular step idx, out).
Proof.
  intro HE. destruct idx as [|t r]; [eexists; reflexivity|]. cbn [detect_gaps]. destruct v.
  - destruct (gaps_loop_ok e step pa pm HE r t 0 0 false []) as (out & E & _). exists out. rewrite E. do 2 f_equal.
  - exists []. apply gaps_loop_quiet, HE.
Qed.
Lemma detect_gaps_error e step pa pm v a b r : has_timedelta_delta e = false ->
  detect_gaps e step pa pm v (a :: b :: r) = Err AttributeError.
Proof. intro HE. cbn. rewrite HE. reflexivity. Qed.

(** ** drop_incomplete_days *)
Lemma head_loop_spec first : forall l i, head_loop first i l = seq i (first_pos (at_hour first) l).
Proof.
  induction l as [|t r IH]; intro i; [reflexivity|]. cbn [head_loop first_pos]. destruct (at_hour first t); [reflexivity|].
  cbn [seq]. rewrite IH. reflexivity.
Qed.
Lemma tail_loop_in last idx : forall i k, In k (tail_loop last idx i) <->
  (0 < k <= i)%nat /\ forall j, (k <= j <= i)%nat -> at_hour last (nth j idx 0) = false.
Proof.
  induction i as [|i IH]; intro k.
  - cbn. split; [tauto|]. intros [H _]. lia.
  - cbn [tail_loop]. destruct (at_hour last (nth (S i) idx 0)) eqn:E.
    + cbn [In]. split; [tauto|]. intros [H1 H2]. rewrite (H2 (S i)) in E; [discriminate|lia].
    + cbn [In]. rewrite IH. split.
      * intros [<-|[H1 H2]]; [split; [lia|]; intros j Hj; replace j with (S i) by lia; exact E|].
        split; [lia|]. intros j Hj. destruct (Nat.eq_dec j (S i)) as [->|]; [exact E|apply H2; lia].
      * intros [H1 H2]. destruct (Nat.eq_dec k (S i)) as [->|]; [left; reflexivity|right]. split; [lia|]. intros j Hj. apply H2. lia.
Qed.
Lemma last_pos_lt {A} (P : A -> bool) l : l <> [] -> (last_pos P l < length l)%nat.
Proof.
  induction l as [|a r IH]; [congruence|]. intros _. cbn [last_pos length]. destruct (existsb P r) eqn:E; [|lia].
  assert (r <> []) by (intros ->; discriminate). specialize (IH H). lia.
Qed.
Lemma last_pos_after {A} (P : A -> bool) d : forall l j, (last_pos P l < j)%nat -> (j < length l)%nat -> P (nth j l d) = false.
Proof.
  induction l as [|a r IH]; intros j H1 H2; [cbn in H2; lia|]. cbn [last_pos length] in *.
  destruct j as [|j]; [lia|]. cbn [nth]. destruct (existsb P r) eqn:E; [apply IH; lia|].
  destruct (P (nth j r d)) eqn:F; [|reflexivity]. exfalso.
  assert (existsb P r = true) by (apply existsb_exists; exists (nth j r d); split; [apply nth_In; lia|exact F]). congruence.
Qed.
Lemma last_pos_at {A} (P : A -> bool) d : forall l, (0 < last_pos P l)%nat -> P (nth (last_pos P l) l d) = true.
Proof.
  induction l as [|a r IH]; [cbn; lia|]. cbn [last_pos]. destruct (existsb P r) eqn:E; [|lia]. intros _. cbn [nth].
  destruct (last_pos P r) eqn:L; [|apply IH; lia].
  apply existsb_exists in E as (x & Hx & Px). destruct r as [|b r]; [destruct Hx|]. cbn [nth].
  cbn [last_pos] in L. destruct (existsb P r) eqn:F; [discriminate|].
  destruct Hx as [<-|Hx]; [exact Px|]. exfalso.
  assert (existsb P r = true) by (apply existsb_exists; eauto). congruence.
Qed.
Lemma first_pos_le {A} (P : A -> bool) l : (first_pos P l <= length l)%nat.
Proof. induction l as [|a r IH]; cbn; [lia|]. destruct (P a); lia. Qed.
Lemma first_pos_at {A} (P : A -> bool) d : forall l, (first_pos P l < length l)%nat -> P (nth (first_pos P l) l d) = true.
Proof.
  induction l as [|a r IH]; [cbn; lia|]. cbn [first_pos length]. destruct (P a) eqn:E; [intros _; exact E|]. intro H. cbn [nth]. apply IH. lia.
Qed.
Lemma first_pos_before {A} (P : A -> bool) d : forall l j, (j < first_pos P l)%nat -> P (nth j l d) = false.
Proof.
  induction l as [|a r IH]; intros j; [cbn; lia|]. cbn [first_pos]. destruct (P a) eqn:E; [lia|]. intro H. destruct j as [|j]; [exact E|]. cbn [nth]. apply IH. lia.
Qed.

Lemma tail_iff last idx k : idx <> [] ->
  In k (tail_loop last idx (length idx - 1)) <-> (last_pos (at_hour last) idx < k < length idx)%nat.
Proof.
  intro NE. assert (HL : (0 < length idx)%nat) by (destruct idx; [congruence|cbn; lia]).
  rewrite tail_loop_in. split.
  - intros [H1 H2]. split; [|lia]. destruct (Nat.lt_ge_cases (last_pos (at_hour last) idx) k) as [|GE]; [assumption|].
    exfalso. pose proof (last_pos_at (at_hour last) 0 idx) as Q. pose proof (last_pos_lt (at_hour last) idx NE).
    rewrite H2 in Q by lia. specialize (Q ltac:(lia)). discriminate.
  - intros H. split; [lia|]. intros j Hj. apply last_pos_after; lia.
Qed.

Lemma filter_block {A} (f : A -> bool) a b : forall l d,
  (forall j, (j < length l)%nat -> f (nth j l d) = (a <=? j)%nat && (j <=? b)%nat) ->
  filter f l = firstn (b + 1 - a) (skipn a l).
Proof.
  revert b. induction a as [|a IHa]; intros b l d H.
  - rewrite Nat.sub_0_r. cbn [skipn]. revert b H. induction l as [|x l IH]; intros b H; [rewrite firstn_nil; reflexivity|].
    rewrite Nat.add_1_r. cbn [filter firstn]. pose proof (H 0%nat ltac:(cbn; lia)) as H0; cbn [nth Nat.leb andb] in H0; rewrite H0; clear H0. f_equal.
    destruct b as [|b].
    + cbn [firstn]. assert (Z : forall y, In y l -> f y = false).
      { intros y Hy. apply In_nth with (d := d) in Hy as (j & Hj & <-). specialize (H (S j) ltac:(cbn; lia)). exact H. }
      clear -Z. induction l as [|y l IH]; [reflexivity|]. cbn [filter]. rewrite (Z y (or_introl eq_refl)). apply IH. intros. apply Z. right. assumption.
    + rewrite (IH b); [rewrite Nat.add_1_r; reflexivity|]. intros j Hj. specialize (H (S j) ltac:(cbn; lia)). exact H.
  - destruct l as [|x l]; [rewrite skipn_nil, firstn_nil; reflexivity|].
    cbn [filter skipn]. pose proof (H 0%nat ltac:(cbn; lia)) as H0; cbn [nth Nat.leb andb] in H0; rewrite H0; clear H0.
    destruct b as [|b].
    + replace (0 + 1 - S a)%nat with O by lia. cbn [firstn].
      assert (Z : forall y, In y l -> f y = false).
      { intros y Hy. apply In_nth with (d := d) in Hy as (j & Hj & <-). specialize (H (S j) ltac:(cbn; lia)). cbn [nth] in H. rewrite H. apply andb_false_r. }
      clear -Z. induction l as [|y l IH]; [reflexivity|]. cbn [filter]. rewrite (Z y (or_introl eq_refl)). apply IH. intros. apply Z. right. assumption.
    + replace (S b + 1 - S a)%nat with (b + 1 - a)%nat by lia. apply (IHa b l d). intros j Hj.
      specialize (H (S j) ltac:(cbn; lia)). exact H.
Qed.

Definition eff_shift (shift : Z) : Z := if (23 <? shift) || (shift <? 0) then 0 else shift.

Lemma drop_block {A} shift (s : list (Z * A)) : StronglySorted Z.lt (map fst s) ->
  let first := eff_shift shift in
  let last := (first + 23) mod 24 in
  let a := first_pos (at_hour first) (map fst s) in
  let b := last_pos (at_hour last) (map fst s) in
  drop_incomplete_days shift s = firstn (b + 1 - a) (skipn a s).
Proof.
  intros HS. cbv zeta. unfold drop_incomplete_days. fold (eff_shift shift). set (f := eff_shift shift).
  assert (Hf : 0 <= f <= 23).
  { unfold f, eff_shift. destruct (Z.ltb_spec 23 shift), (Z.ltb_spec shift 0); cbn [orb]; lia. }
  replace (if f - 1 <? 0 then f - 1 + 24 else f - 1) with ((f + 23) mod 24).
  2:{ destruct (Z.ltb_spec (f - 1) 0).
      - replace f with 0 by lia. reflexivity.
      - symmetry. apply Z.mod_unique with (q := 1); lia. }
  clearbody f. set (la := (f + 23) mod 24). clearbody la. set (idx := map fst s) in *.
  assert (LI : length idx = length s) by apply map_length.
  destruct s as [|p0 s']; [reflexivity|]. set (s := p0 :: s') in *.
  assert (NE : idx <> []) by discriminate.
  apply filter_block with (d := (0, snd p0)). intros j Hj.
  assert (EJ : fst (nth j s (0, snd p0)) = nth j idx 0) by (unfold idx; rewrite <- (map_nth fst); reflexivity).
  rewrite EJ.
  assert (ND : NoDup idx) by (apply sorted_NoDup; exact HS).
  assert (MEM : mem (nth j idx 0) (map (fun i => nth i idx 0) (head_loop f 0 idx ++ tail_loop la idx (length idx - 1))) = true
                <-> ((j < first_pos (at_hour f) idx) \/ (last_pos (at_hour la) idx < j))%nat).
  { rewrite mem_In, in_map_iff. split.
    - intros (i & E & Hi). apply in_app_iff in Hi. 
      assert (IB : (i < length idx)%nat).
      { destruct Hi as [Hi|Hi]; [rewrite head_loop_spec in Hi; apply in_seq in Hi; pose proof (first_pos_le (at_hour f) idx); lia|].
        apply tail_iff in Hi; [lia|exact NE]. }
      rewrite NoDup_nth in ND. apply ND in E; [|exact IB|lia]. subst i.
      destruct Hi as [Hi|Hi]; [rewrite head_loop_spec in Hi; apply in_seq in Hi; lia|]. apply tail_iff in Hi; [lia|exact NE].
    - intro H. exists j. split; [reflexivity|]. apply in_app_iff. destruct H as [H|H].
      + left. rewrite head_loop_spec. apply in_seq. lia.
      + right. apply tail_iff; [exact NE|]. rewrite LI. lia. }
  destruct (mem _ _) eqn:M.
  - destruct (proj1 MEM eq_refl) as [H|H]; cbn [negb]; symmetry; apply andb_false_iff; [left|right]; apply Nat.leb_gt; lia.
  - cbn [negb]. symmetry. apply andb_true_iff. split; apply Nat.leb_le.
    + destruct (Nat.lt_ge_cases j (first_pos (at_hour f) idx)); [|assumption]. discriminate (proj2 MEM (or_introl H)).
    + destruct (Nat.lt_ge_cases (last_pos (at_hour la) idx) j); [|lia]. discriminate (proj2 MEM (or_intror H)).
Qed.
