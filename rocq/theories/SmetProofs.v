(** Lemmas about the SMET text model. *)
From Coq Require Import String Ascii ZArith NArith Reals List Bool Lia Lra DecimalString DecimalN.
From Flocq Require Import Core.
From Verif Require Import Py Num Cal Series Frame SmetModel SpecSmet.
Import ListNotations.
Open Scope string_scope.
Open Scope Z_scope.
Open Scope list_scope.

(** ** characters *)
Lemma is_space_white c : is_space c = true <-> white c.
Proof.
  unfold is_space, white. rewrite !orb_true_iff, !andb_true_iff, !Z.leb_le, !Z.eqb_eq.
  replace (Z.of_N (N_of_ascii c)) with (Z.of_nat (nat_of_ascii c)) by (unfold nat_of_ascii; rewrite N_nat_Z; reflexivity).
  cbn [In]. lia.
Qed.
Lemma is_space_false c : is_space c = false <-> ~ white c.
Proof. rewrite <- is_space_white. destruct (is_space c); intuition congruence. Qed.
Lemma chars_app a b : chars (a ++ b)%string = chars a ++ chars b.
Proof. induction a as [|c a IH]; cbn; [reflexivity|]. f_equal. exact IH. Qed.
Lemma sapp_assoc (a b c : string) : ((a ++ b) ++ c = a ++ (b ++ c))%string.
Proof. induction a; cbn; congruence. Qed.
Lemma sapp_nil (a : string) : (a ++ "" = a)%string.
Proof. induction a; cbn; congruence. Qed.

(** ** lines *)
Definition raw (s : string) : list string := let '(l, ls) := pieces s in l :: ls.
Lemma lines_raw s : lines s = drop_last_empty (raw s).
Proof. unfold lines, raw. destruct (pieces s). reflexivity. Qed.
Definition flat (s : string) : Prop := without LF s /\ without CR s.
Lemma flat_cons c s : flat (String c s) <-> c <> LF /\ c <> CR /\ flat s.
Proof. unfold flat, without, chars. cbn. intuition. Qed.
Lemma flat_app a b : flat (a ++ b)%string <-> flat a /\ flat b.
Proof. unfold flat, without. rewrite chars_app. rewrite !in_app_iff. tauto. Qed.
Lemma eqb_false (a b : ascii) : a <> b -> Ascii.eqb a b = false.
Proof. destruct (Ascii.eqb_spec a b); congruence. Qed.
Lemma pieces_flat l r : flat l -> pieces (l ++ String LF r) = (l, raw r).
Proof.
  induction l as [|c l IH]; intro F; [cbn [append pieces]; rewrite Ascii.eqb_refl; reflexivity|].
  apply flat_cons in F as (A & B & F). cbn [append pieces]. rewrite (eqb_false _ _ A), (eqb_false _ _ B), (IH F). reflexivity.
Qed.
Lemma pieces_last l : flat l -> pieces l = (l, []).
Proof.
  induction l as [|c l IH]; intro F; [reflexivity|]. apply flat_cons in F as (A & B & F).
  cbn [pieces]. rewrite (eqb_false _ _ A), (eqb_false _ _ B), (IH F). reflexivity.
Qed.
Lemma lines_nl l r : flat l -> lines (nl l ++ r)%string = l :: lines r.
Proof.
  intro F. rewrite !lines_raw. unfold nl. rewrite sapp_assoc. cbn [append]. unfold raw at 1. rewrite (pieces_flat l r F).
  cbn [drop_last_empty]. unfold raw at 1. destruct (pieces r). reflexivity.
Qed.
Lemma lines_last l : flat l -> l <> "" -> lines l = [l].
Proof. intros F N. rewrite lines_raw. unfold raw. rewrite (pieces_last l F). cbn. destruct l; [congruence|reflexivity]. Qed.
Lemma lines_concat ls : Forall flat ls -> Forall (fun l => l <> "") ls -> lines (String.concat (String LF "") ls) = ls.
Proof.
  intro F. induction F as [|l ls F1 F IH]; intro N; [reflexivity|]. inversion N; subst. destruct ls as [|l' ls]; [cbn; apply lines_last; auto|].
  change (String.concat (String LF "") (l :: l' :: ls)) with (l ++ (String LF "") ++ String.concat (String LF "") (l' :: ls))%string.
  rewrite <- sapp_assoc. change (l ++ String LF "")%string with (nl l). rewrite lines_nl by auto. f_equal. auto.
Qed.
Lemma lines_block ls r : Forall flat ls -> lines (String.concat "" (map nl ls) ++ r)%string = ls ++ lines r.
Proof.
  intro F. induction F as [|l ls F1 F IH]; [reflexivity|]. 
  assert (E : String.concat "" (map nl (l :: ls)) = (nl l ++ String.concat "" (map nl ls))%string).
  { cbn [map String.concat]. destruct (map nl ls); [rewrite sapp_nil|]; reflexivity. }
  rewrite E, sapp_assoc, lines_nl by auto. rewrite IH. reflexivity.
Qed.

(** ** cutting and trimming *)
Lemma without_cons c d s : without c (String d s) <-> d <> c /\ without c s.
Proof. unfold without, chars. cbn. intuition. Qed.
Lemma without_app c a b : without c (a ++ b)%string <-> without c a /\ without c b.
Proof. unfold without. rewrite chars_app, in_app_iff. tauto. Qed.
Lemma after_app c a b : without c a -> after c (a ++ String c b) = Some b.
Proof.
  induction a as [|d a IH]; intro W; cbn [append after]; [rewrite Ascii.eqb_refl; reflexivity|].
  apply without_cons in W as [A W]. rewrite (eqb_false _ _ A). auto.
Qed.
Lemma until_app c a b : without c a -> until c (a ++ String c b) = a.
Proof.
  induction a as [|d a IH]; intro W; cbn [append until]; [rewrite Ascii.eqb_refl; reflexivity|].
  apply without_cons in W as [A W]. rewrite (eqb_false _ _ A), IH; auto.
Qed.
Lemma after_none c a : without c a <-> after c a = None.
Proof.
  induction a as [|d a IH]; cbn [after]; [unfold without; cbn; tauto|]. rewrite without_cons.
  destruct (Ascii.eqb_spec d c); [intuition congruence|tauto].
Qed.
Lemma until_self c a : without c a -> until c a = a.
Proof. induction a as [|d a IH]; intro W; cbn; [reflexivity|]. apply without_cons in W as [A W]. rewrite (eqb_false _ _ A), IH; auto. Qed.
Lemma until_cut s : cut s (until "="%char s).
Proof.
  unfold cut. induction s as [|d s IH]; cbn [until].
  - split; [unfold without; cbn; tauto|left; reflexivity].
  - destruct (Ascii.eqb_spec d "="%char) as [->|N].
    + split; [unfold without; cbn; tauto|]. right. exists s. reflexivity.
    + destruct IH as [W H]. split; [apply without_cons; auto|]. destruct H as [E|(r & E)]; [left; congruence|]. right. exists r. exact (f_equal (String d) E).
Qed.
Lemma lstrip_white s : exists a, chars s = a ++ chars (lstrip s) /\ Forall white a /\ (forall c, hd_error (chars (lstrip s)) = Some c -> ~ white c).
Proof.
  induction s as [|c s (a & E & F & H)]; [exists []; cbn; repeat split; auto; discriminate|]. cbn [lstrip].
  destruct (is_space c) eqn:W.
  - exists (c :: a). cbn. unfold chars in E. rewrite E. repeat split; auto. constructor; auto. apply is_space_white, W.
  - exists []. cbn. repeat split; auto. intros d Q. injection Q as <-. apply is_space_false, W.
Qed.
Lemma rstrip_white s : exists b, chars s = chars (rstrip s) ++ b /\ Forall white b /\ (forall c, hd_error (rev (chars (rstrip s))) = Some c -> ~ white c) /\
  (forall c, hd_error (chars (rstrip s)) = Some c -> hd_error (chars s) = Some c).
Proof.
  induction s as [|c s (b & E & F & H & G)]; [exists []; cbn; repeat split; auto; discriminate|]. cbn [rstrip].
  destruct (rstrip s) as [|d t] eqn:R.
  - cbn in E. destruct (is_space c) eqn:W.
    + exists (c :: b). cbn. unfold chars in E. rewrite E. repeat split; auto; try discriminate. constructor; auto. apply is_space_white, W.
    + exists b. cbn. unfold chars in E. rewrite E. repeat split; auto. intros e Q. injection Q as <-. apply is_space_false, W.
  - exists b. split; [|split; [auto|split]].
    + change (chars (String c s)) with (c :: chars s). rewrite E. reflexivity.
    + intros e Q. apply H. change (chars (String c (String d t))) with (c :: chars (String d t)) in Q.
      cbn [rev] in Q. destruct (rev (chars (String d t))) eqn:RV; [|exact Q].
      apply (f_equal (@rev ascii)) in RV. rewrite rev_involutive in RV. discriminate.
    + intros e Q. exact Q.
Qed.
Lemma strip_trimmed s : trimmed s (strip s).
Proof.
  unfold strip, trimmed. destruct (lstrip_white s) as (a & E & F & H). destruct (rstrip_white (lstrip s)) as (b & E' & F' & H' & G').
  exists a, b. rewrite E, E'. repeat split; auto.
Qed.
Lemma trimmed_self s : (forall c, hd_error (chars s) = Some c -> ~ white c) -> (forall c, hd_error (rev (chars s)) = Some c -> ~ white c) -> trimmed s s.
Proof. intros. exists [], []. rewrite app_nil_r. repeat split; auto. Qed.
Lemma chars_inj a b : chars a = chars b -> a = b.
Proof. intro H. rewrite <- (string_of_list_ascii_of_string a), <- (string_of_list_ascii_of_string b). unfold chars in H. congruence. Qed.
(** trimming is determined *)
Lemma split_white (a a' s s' : list ascii) : a ++ s = a' ++ s' -> Forall white a -> Forall white a' ->
  (forall c, hd_error s = Some c -> ~ white c) -> (forall c, hd_error s' = Some c -> ~ white c) -> s = s' \/ s = [] \/ s' = [].
Proof.
  revert a'. induction a as [|c a IH]; intros [|c' a'] E F F' H H'; cbn in E.
  - auto.
  - destruct s as [|d s]; [auto|]. injection E as -> E. inversion F'; subst. exfalso. apply (H c'); auto.
  - destruct s' as [|d s']; [auto|]. injection E as -> E. inversion F; subst. exfalso. apply (H' d); auto.
  - injection E as -> E. inversion F; inversion F'; subst. eauto.
Qed.
Lemma white_all (l : list ascii) : Forall white l -> forall c, hd_error l = Some c -> white c.
Proof. intros F c H. destruct F; [discriminate|]. cbn in H. congruence. Qed.
Lemma trimmed_nil s s' : trimmed s s' -> (s' = "" <-> Forall white (chars s)).
Proof.
  intros (a & b & E & F & F' & H & _). split.
  - intros ->. rewrite E. cbn. apply Forall_app. auto.
  - intro W. apply chars_inj. cbn. rewrite E in W. apply Forall_app in W as [_ W]. apply Forall_app in W as [W _].
    destruct (chars s') as [|c t] eqn:Q; [reflexivity|]. exfalso. apply (H c); [reflexivity|]. inversion W; auto.
Qed.
Lemma trimmed_fun s a b : trimmed s a -> trimmed s b -> a = b.
Proof.
  intros T1 T2. pose proof (trimmed_nil _ _ T1) as N1. pose proof (trimmed_nil _ _ T2) as N2.
  destruct T1 as (x & y & E & F & F' & H & H'). destruct T2 as (x' & y' & E2 & F2 & F2' & H2 & H2').
  destruct (string_dec a "") as [->|NA]; [symmetry; apply N2, N1; reflexivity|].
  destruct (string_dec b "") as [->|NB]; [apply N1, N2; reflexivity|].
  assert (CA : chars a <> []) by (intro Q; apply NA, chars_inj; exact Q).
  assert (CB : chars b <> []) by (intro Q; apply NB, chars_inj; exact Q).
  assert (S1 : chars a ++ y = chars b ++ y').
  { destruct (split_white x x' (chars a ++ y) (chars b ++ y')) as [Q|[Q|Q]]; auto.
    - congruence.
    - intros c Q. apply H. destruct (chars a); [congruence|exact Q].
    - intros c Q. apply H2. destruct (chars b); [congruence|exact Q].
    - destruct (chars a); [congruence|discriminate].
    - destruct (chars b); [congruence|discriminate]. }
  apply (f_equal (@rev ascii)) in S1. rewrite !rev_app_distr in S1.
  apply chars_inj.
  assert (S2 : rev (chars a) = rev (chars b)).
  { destruct (split_white (rev y) (rev y') (rev (chars a)) (rev (chars b))) as [Q|[Q|Q]]; auto; try (apply Forall_rev; assumption).
    - apply (f_equal (@rev ascii)) in Q. rewrite rev_involutive in Q. cbn in Q. congruence.
    - apply (f_equal (@rev ascii)) in Q. rewrite rev_involutive in Q. cbn in Q. congruence. }
  apply (f_equal (@rev ascii)) in S2. rewrite !rev_involutive in S2. exact S2.
Qed.
Lemma strip_iff s s' : strip s = s' <-> trimmed s s'.
Proof. split; [intros <-; apply strip_trimmed|intro T; eapply trimmed_fun; [apply strip_trimmed|exact T]]. Qed.
(** white space around does not matter *)
Lemma strip_around a s b : Forall white (chars a) -> Forall white (chars b) -> strip (a ++ s ++ b)%string = strip s.
Proof.
  intros FA FB. apply strip_iff. destruct (strip_trimmed s) as (x & y & E & F & F' & H & H').
  exists (chars a ++ x), (y ++ chars b). rewrite !chars_app, E, <- !app_assoc. repeat split; auto; apply Forall_app; auto.
Qed.
Lemma strip_keeps c s : In c (chars s) -> ~ white c -> In c (chars (strip s)).
Proof.
  intros H N. destruct (strip_trimmed s) as (a & b & E & F & F' & _). rewrite E, !in_app_iff in H.
  rewrite Forall_forall in F, F'. destruct H as [H|[H|H]]; auto; exfalso; auto.
Qed.
Lemma strip_sub c s : In c (chars (strip s)) -> In c (chars s).
Proof. intro H. destruct (strip_trimmed s) as (a & b & E & _). rewrite E, !in_app_iff. auto. Qed.

(** ** words *)
Lemma words_space sp c r : sp c = true -> words sp (String c r) = words sp r.
Proof. intro H. unfold words. cbn [words_go]. destruct (words_go sp r). rewrite H. reflexivity. Qed.
Definition solid (sp : ascii -> bool) (w : string) : Prop := forall c, In c (chars w) -> sp c = false.
Lemma words_go_solid sp w r : solid sp w -> words_go sp (w ++ r)%string = let '(v, ws) := words_go sp r in ((w ++ v)%string, ws).
Proof.
  induction w as [|c w IH]; intro S0; cbn [append words_go]; [destruct (words_go sp r); reflexivity|].
  rewrite IH; [|intros d D; apply S0; right; exact D]. destruct (words_go sp r). rewrite S0 by (left; reflexivity). reflexivity.
Qed.
Lemma words_word sp w c r : solid sp w -> w <> "" -> sp c = true -> words sp (w ++ String c r) = w :: words sp r.
Proof.
  intros S0 N H. unfold words. rewrite words_go_solid by exact S0. cbn [words_go]. destruct (words_go sp r). rewrite H. cbn. rewrite sapp_nil.
  destruct w; [congruence|reflexivity].
Qed.
Lemma words_last sp w : solid sp w -> w <> "" -> words sp w = [w].
Proof.
  intros S0 N. unfold words. rewrite <- (sapp_nil w). rewrite words_go_solid by exact S0. cbn [words_go]. rewrite !sapp_nil.
  destruct w; [congruence|reflexivity].
Qed.
Lemma words_strip s : words is_space (strip s) = words is_space s.
Proof.
  unfold strip. transitivity (words is_space (lstrip s)).
  - generalize (lstrip s). intro t. unfold words.
    assert (E : words_go is_space (rstrip t) = words_go is_space t); [|rewrite E; reflexivity].
    induction t as [|c t IH]; [reflexivity|]. cbn [rstrip words_go]. destruct (rstrip t) as [|d u] eqn:R.
    + rewrite <- IH. cbn [words_go]. destruct (is_space c) eqn:W; cbn; rewrite ?W; reflexivity.
    + rewrite <- IH. cbn [words_go]. reflexivity.
  - induction s as [|c s IH]; [reflexivity|]. cbn [lstrip]. destruct (is_space c) eqn:W; [|reflexivity]. rewrite words_space by exact W. exact IH.
Qed.
Lemma words_concat sp ws : sp " "%char = true -> Forall (fun w => solid sp w /\ w <> "") ws -> words sp (String.concat " " ws) = ws.
Proof.
  intros H F. induction F as [|w ws [S0 N] F IH]; [reflexivity|]. destruct ws as [|w' ws]; [cbn; apply words_last; auto|].
  change (String.concat " " (w :: w' :: ws)) with (w ++ String " "%char (String.concat " " (w' :: ws)))%string.
  rewrite words_word by auto. f_equal. exact IH.
Qed.
Lemma words_spaces sp n r : sp " "%char = true -> words sp (spaces n ++ r)%string = words sp r.
Proof. intro H. induction n as [|n IH]; cbn [spaces append]; [reflexivity|]. rewrite words_space by exact H. exact IH. Qed.
Lemma words_row pad cells : Forall (fun w => solid is_blank w /\ w <> "") cells -> forall j, words is_blank (row_text pad j cells) = cells.
Proof.
  intro F. induction F as [|w ws [S0 N] F IH]; intro j; [reflexivity|]. cbn [row_text]. rewrite words_spaces by reflexivity.
  destruct ws as [|w' ws]; [rewrite sapp_nil; apply words_last; auto|].
  change (" " ++ row_text pad (S j) (w' :: ws))%string with (String " "%char (row_text pad (S j) (w' :: ws))). rewrite words_word by auto. f_equal. apply IH.
Qed.
Lemma words_units n : words is_space (repeat_text "1 " n) = repeat "1" n.
Proof.
  induction n as [|n IH]; [reflexivity|]. cbn [repeat_text repeat append]. change (String "1" (String " " (repeat_text "1 " n))) with ("1" ++ String " "%char (repeat_text "1 " n))%string.
  rewrite words_word; [f_equal; exact IH| |discriminate|reflexivity]. intros c [<-|[]]. reflexivity.
Qed.

(** ** numbers *)
Definition is_digit (c : ascii) : Prop := exists n, 0 <= n <= 9 /\ c = digit n.
Lemma uint_digits u : forall c, In c (chars (NilEmpty.string_of_uint u)) -> is_digit c.
Proof.
  assert (D : forall n c (l : list ascii) , 0 <= n <= 9 -> (forall c, In c l -> is_digit c) -> In c (digit n :: l) -> is_digit c).
  { intros n c l H1 H2 [<-|H]; [exists n; auto|auto]. }
  induction u; intros c H; try contradiction; cbn [NilEmpty.string_of_uint] in H;
    [apply (D 0 c _ ltac:(lia) IHu H)|apply (D 1 c _ ltac:(lia) IHu H)|apply (D 2 c _ ltac:(lia) IHu H)|apply (D 3 c _ ltac:(lia) IHu H)
    |apply (D 4 c _ ltac:(lia) IHu H)|apply (D 5 c _ ltac:(lia) IHu H)|apply (D 6 c _ ltac:(lia) IHu H)|apply (D 7 c _ ltac:(lia) IHu H)
    |apply (D 8 c _ ltac:(lia) IHu H)|apply (D 9 c _ ltac:(lia) IHu H)].
Qed.
Definition nat_text (n : Z) : string := NilZero.string_of_uint (N.to_uint (Z.to_N n)).
Lemma to_uint_not_nil n : N.to_uint n <> Decimal.Nil.
Proof. rewrite <- (Unsigned.of_to n), Unsigned.to_of. apply DecimalFacts.unorm_nonnil. Qed.
Lemma nat_text_digits n c : In c (chars (nat_text n)) -> is_digit c.
Proof.
  unfold nat_text, NilZero.string_of_uint. pose proof (to_uint_not_nil (Z.to_N n)). destruct (N.to_uint (Z.to_N n)) eqn:E; [congruence|..]; apply uint_digits.
Qed.
Lemma nat_text_back n : 0 <= n -> uint_text (nat_text n) = Some n.
Proof.
  intro H. unfold uint_text, nat_text. rewrite NilZero.usu by apply to_uint_not_nil. cbn [option_map]. rewrite Unsigned.of_to, Z2N.id by exact H. reflexivity.
Qed.
Lemma nat_text_nonempty n : nat_text n <> "".
Proof. unfold nat_text, NilZero.string_of_uint. pose proof (to_uint_not_nil (Z.to_N n)). destruct (N.to_uint (Z.to_N n)); [congruence|discriminate..]. Qed.
Lemma two_sweep : forallb (fun n => match uint_text (two n) with Some m => m =? n | None => false end) (zseq 0 100) = true.
Proof. vm_compute. reflexivity. Qed.
Lemma two_back n : 0 <= n < 100 -> uint_text (two n) = Some n.
Proof.
  intro H. pose proof two_sweep as S0. rewrite forallb_forall in S0. specialize (S0 n). rewrite in_zseq in S0. specialize (S0 ltac:(lia)).
  destruct (uint_text (two n)); [|discriminate]. apply Z.eqb_eq in S0. congruence.
Qed.
Lemma digit_facts c : is_digit c -> is_space c = false /\ is_blank c = false /\ c <> LF /\ c <> CR /\ c <> "."%char /\ c <> "-"%char /\ c <> "i"%char /\ c <> "N"%char.
Proof.
  intros (n & H & ->). assert (C : n = 0 \/ n = 1 \/ n = 2 \/ n = 3 \/ n = 4 \/ n = 5 \/ n = 6 \/ n = 7 \/ n = 8 \/ n = 9) by lia.
  repeat (destruct C as [->|C]; [repeat split; discriminate|]). subst. repeat split; discriminate.
Qed.
Lemma two_digits n c : 0 <= n < 100 -> In c (chars (two n)) -> is_digit c.
Proof.
  intros H [<-|[<-|[]]]; eexists; (split; [|reflexivity]).
  - split; [apply Z.div_pos; lia|]. assert (n / 10 < 10) by (apply Z.div_lt_upper_bound; lia). lia.
  - pose proof (Z.mod_pos_bound n 10 ltac:(lia)). lia.
Qed.
(** characters of printed numbers *)
Definition plain_char (c : ascii) : Prop := is_space c = false /\ is_blank c = false /\ c <> LF /\ c <> CR.
Lemma fmt2_plain x c : In c (chars (fmt2 x)) -> plain_char c.
Proof.
  destruct x as [r| | |]; cbn [fmt2]; cbv zeta; intro H.
  - rewrite !chars_app, !in_app_iff in H. destruct H as [H|[H|[H|H]]].
    + destruct (Rltb r 0); [|contradiction]. destruct H as [<-|[]]. repeat split; discriminate.
    + apply nat_text_digits, digit_facts in H. unfold plain_char. tauto.
    + destruct H as [<-|[]]. repeat split; discriminate.
    + apply two_digits, digit_facts in H; [unfold plain_char; tauto|]. apply Z.mod_pos_bound. lia.
  - cbn in H. repeat (destruct H as [<-|H]; [repeat split; discriminate|]). contradiction.
  - cbn in H. repeat (destruct H as [<-|H]; [repeat split; discriminate|]). contradiction.
  - cbn in H. repeat (destruct H as [<-|H]; [repeat split; discriminate|]). contradiction.
Qed.
Lemma fmt2_nonempty x : fmt2 x <> "".
Proof.
  destruct x as [r| | |]; try discriminate. cbn [fmt2]. cbv zeta. fold (nat_text (ZnearestE (Rabs r * 100) / 100)).
  pose proof (nat_text_nonempty (ZnearestE (Rabs r * 100) / 100)). destruct (Rltb r 0); [discriminate|]. destruct (nat_text _); [congruence|discriminate].
Qed.
(** the nearest number of hundredths *)
Lemma near_even x : (Rabs (IZR (ZnearestE x) - x) <= / 2)%R /\ (Rabs (IZR (ZnearestE x) - x) = / 2 -> Z.even (ZnearestE x) = true)%R.
Proof.
  split; [rewrite Rabs_minus_sym; apply Znearest_half|]. intro H. unfold Znearest in *.
  pose proof (Zfloor_lb x) as L. pose proof (Zfloor_ub x) as U.
  destruct (Rcompare_spec (x - IZR (Zfloor x)) (/ 2)) as [Q|Q|Q].
  - exfalso. revert H. unfold Rabs. destruct (Rcase_abs _); lra.
  - destruct (Z.even (Zfloor x)) eqn:EV; cbn [negb]; [exact EV|].
    rewrite Zceil_floor_neq by lra. rewrite Z.even_add, EV. reflexivity.
  - exfalso. revert H. rewrite Zceil_floor_neq by lra. rewrite plus_IZR. unfold Rabs. destruct (Rcase_abs _); lra.
Qed.
Definition hundredths (r : R) : Z := if Rltb r 0 then - ZnearestE (Rabs r * 100) else ZnearestE (Rabs r * 100).
Lemma hundredths_ok r : two_decimals r (hundredths r).
Proof.
  unfold hundredths, two_decimals. destruct (near_even (Rabs r * 100)) as [H E]. set (n := ZnearestE (Rabs r * 100)) in *.
  assert (K : Rabs (IZR n / 100 - Rabs r) = (Rabs (IZR n - Rabs r * 100) / 100)%R).
  { replace (IZR n / 100 - Rabs r)%R with ((IZR n - Rabs r * 100) / 100)%R by field. unfold Rdiv. rewrite Rabs_mult. rewrite (Rabs_right (/ 100)) by lra. reflexivity. }
  destruct (Rltb_spec r 0) as [L|L].
  - clearbody n. rewrite (Rabs_left r L) in *. rewrite opp_IZR. replace (- IZR n / 100 - r)%R with (- (IZR n / 100 - - r))%R by field. rewrite Rabs_Ropp, K.
    rewrite Z.even_opp. split; [lra|]. intro Q. apply E. lra.
  - clearbody n. rewrite (Rabs_right r) in * by lra. rewrite K. split; [lra|]. intro Q. apply E. lra.
Qed.
Lemma nearest_nonneg x : (0 <= x)%R -> 0 <= ZnearestE x.
Proof. intro H. rewrite <- (Zrnd_IZR ZnearestE 0). apply (@Zrnd_le ZnearestE); [typeclasses eauto|exact H]. Qed.
Lemma unsigned_back n m : 0 <= n -> 0 <= m < 100 -> unsigned (nat_text n ++ "." ++ two m)%string = Some (Fin (IZR (n * 100 + m) / 100)).
Proof.
  intros HN HM. unfold unsigned. destruct (String.eqb_spec (nat_text n ++ "." ++ two m)%string "inf") as [E|_].
  { exfalso. apply (f_equal chars) in E. rewrite chars_app in E.
    pose proof (nat_text_nonempty n) as NE. pose proof (nat_text_digits n) as D. destruct (nat_text n) as [|c t]; [congruence|].
    injection E as -> _. specialize (D "i"%char (or_introl eq_refl)). apply digit_facts in D. tauto. }
  assert (W : without "."%char (nat_text n)).
  { intro I. apply nat_text_digits, digit_facts in I. tauto. }
  change ("." ++ two m)%string with (String "."%char (two m)). rewrite after_app, until_app by exact W.
  rewrite nat_text_back, two_back by assumption. change (10 ^ Z.of_nat (String.length (two m))) with 100. reflexivity.
Qed.
Lemma number_fmt2 x : number (fmt2 x) = Some (match x with Fin r => Fin (IZR (hundredths r) / 100) | _ => x end).
Proof.
  destruct x as [r| | |]; try reflexivity. cbn [fmt2]. cbv zeta. unfold hundredths. set (n := ZnearestE (Rabs r * 100)).
  assert (HN : 0 <= n) by (apply nearest_nonneg; pose proof (Rabs_pos r); lra).
  fold (nat_text (n / 100)).
  assert (U : unsigned (nat_text (n / 100) ++ "." ++ two (n mod 100))%string = Some (Fin (IZR n / 100))).
  { rewrite unsigned_back; [|apply Z.div_pos; lia|apply Z.mod_pos_bound; lia]. do 3 f_equal. f_equal. pose proof (Z.div_mod n 100). lia. }
  destruct (Rltb r 0).
  - transitivity (option_map xopp (unsigned (nat_text (n / 100) ++ "." ++ two (n mod 100))%string)); [reflexivity|].
    rewrite U. cbn. rewrite opp_IZR. do 2 f_equal. field.
  - cbn [append]. pose proof (nat_text_nonempty (n / 100)) as NE. pose proof (nat_text_digits (n / 100)) as D.
    destruct (nat_text (n / 100)) as [|c t] eqn:ET; [congruence|]. specialize (D c (or_introl eq_refl)). apply digit_facts in D as (_ & _ & _ & _ & _ & ND & _ & NN).
    cbn [append] in *. unfold number.
    assert (Q : (String c (t ++ String "." (two (n mod 100))) =? "NaN")%string = false).
    { destruct (String.eqb_spec (String c (t ++ String "." (two (n mod 100)))) "NaN") as [E|]; [|reflexivity]. injection E as E _. contradiction. }
    rewrite Q. destruct c as [[] [] [] [] [] [] [] []]; try exact U. exfalso. apply ND. reflexivity.
Qed.
Lemma cell_fmt2 x : exists y, cell (fmt2 x) = Some y /\ number_back x y.
Proof.
  unfold cell. rewrite number_fmt2. destruct x as [r| | |]; cbn [number_back]; try (eexists; split; reflexivity).
  eexists. split; [reflexivity|]. exists (hundredths r). split; [apply hundredths_ok|].
  destruct (Z.eqb_spec (hundredths r) (-99900)) as [E|N]; destruct (Reqb_spec (IZR (hundredths r) / 100) (-999)) as [E'|N']; try reflexivity.
  - exfalso. apply N'. rewrite E. lra.
  - exfalso. apply N. apply eq_IZR. lra.
Qed.

(** ** time stamps *)
Lemma num2_two n : 0 <= n < 100 -> num2 (digit (n / 10)) (digit (n mod 10)) = Some n.
Proof. apply two_back. Qed.
Lemma stamp_general t h i : four_digit_year t -> 0 <= h <= 23 -> 0 <= i <= 59 ->
  stamp (date_text t ++ "T" ++ two h ++ ":" ++ two i)%string = Some (midnight (date_of t) + h * us_hour + i * us_minute).
Proof.
  intros Y H I. unfold date_text, two. cbn [append stamp].
  pose proof (month_range (date_of t)) as M. pose proof (dom_range (date_of t)) as D. fold (month_of t) in M. fold (dom_of t) in D.
  assert (0 <= year_of t / 100 < 100) by (unfold four_digit_year in Y; split; [apply Z.div_pos; lia|apply Z.div_lt_upper_bound; lia]).
  pose proof (Z.mod_pos_bound (year_of t) 100 ltac:(lia)).
  rewrite !num2_two by lia. 
  replace ((1 <=? month_of t) && (month_of t <=? 12) && (1 <=? dom_of t) && (dom_of t <=? 31) && (h <=? 23) && (i <=? 59)) with true by
    (symmetry; rewrite !andb_true_iff, !Z.leb_le; lia).
  do 4 f_equal. replace (100 * (year_of t / 100) + year_of t mod 100) with (year_of t) by (pose proof (Z.div_mod (year_of t) 100); lia).
  apply civil_roundtrip.
Qed.
Lemma whole_minute_eq t : midnight (date_of t) + hour_of t * us_hour + minute_of t * us_minute = whole_minute t.
Proof. unfold midnight, date_of, hour_of, minute_of, tod, whole_minute, us_day, us_hour, us_minute. 
  pose proof (Z.div_mod t 86400000000 ltac:(lia)). set (a := t mod 86400000000) in *. set (d := t / 86400000000) in *.
  pose proof (Z.div_mod a 3600000000 ltac:(lia)). set (b := a mod 3600000000) in *. pose proof (Z.div_mod b 60000000 ltac:(lia)).
  assert (t mod 60000000 = b mod 60000000); [|lia].
  rewrite H. rewrite H0. replace (86400000000 * d + (3600000000 * (a / 3600000000) + b)) with (b + (1440 * d + 60 * (a / 3600000000)) * 60000000) by ring.
  apply Z_mod_plus_full.
Qed.
Lemma minute_range t : 0 <= minute_of t <= 59.
Proof.
  unfold minute_of, us_hour, us_minute. pose proof (Z.mod_pos_bound (tod t) 3600000000 ltac:(lia)).
  assert (tod t mod 3600000000 / 60000000 < 60) by (apply Z.div_lt_upper_bound; lia). assert (0 <= tod t mod 3600000000 / 60000000) by (apply Z.div_pos; lia). lia.
Qed.
Lemma stamp_h t : four_digit_year t -> stamp (date_text t ++ "T" ++ two (hour_of t) ++ ":" ++ two (minute_of t))%string = Some (whole_minute t).
Proof.
  intro Y. pose proof (hour_range t). pose proof (minute_range t). rewrite stamp_general by (assumption || lia). rewrite whole_minute_eq. reflexivity.
Qed.
Lemma stamp_d t : four_digit_year t -> stamp (date_text t ++ "T00:00")%string = Some (whole_day t).
Proof.
  intro Y. change "T00:00" with ("T" ++ two 0 ++ ":" ++ two 0)%string. rewrite stamp_general by (assumption || lia). f_equal.
  unfold midnight, date_of, whole_day, us_day, us_hour, us_minute. pose proof (Z.div_mod t 86400000000 ltac:(lia)). lia.
Qed.
Lemma date_text_plain t c : four_digit_year t -> In c (chars (date_text t)) -> plain_char c.
Proof.
  intros Y H. unfold date_text in H. rewrite !chars_app, !in_app_iff in H.
  pose proof (month_range (date_of t)) as M. pose proof (dom_range (date_of t)) as D. fold (month_of t) in M. fold (dom_of t) in D.
  assert (0 <= year_of t / 100 < 100) by (unfold four_digit_year in Y; split; [apply Z.div_pos; lia|apply Z.div_lt_upper_bound; lia]).
  pose proof (Z.mod_pos_bound (year_of t) 100 ltac:(lia)).
  assert (P : forall n, 0 <= n < 100 -> In c (chars (two n)) -> plain_char c).
  { intros n HN I. apply two_digits, digit_facts in I; [|exact HN]. unfold plain_char. tauto. }
  destruct H as [H|[H|[H|[H|[H|H]]]]]; try (eapply P; [|exact H]; lia); destruct H as [<-|[]]; repeat split; discriminate.
Qed.
Lemma stamp_plain mode f t c : time_format mode = Some f -> four_digit_year t -> In c (chars (f t)) -> plain_char c.
Proof.
  unfold time_format. intros E Y H. destruct (String.eqb mode "d"); [|destruct (String.eqb mode "h"); [|discriminate]];
    apply (f_equal (fun o => match o with Some g => g t | None => "" end)) in E; cbv beta iota in E; rewrite <- E in H; clear E.
  - rewrite chars_app, in_app_iff in H. destruct H as [H|H]; [eapply date_text_plain; eauto|].
    cbn in H. repeat (destruct H as [<-|H]; [repeat split; discriminate|]). contradiction.
  - pose proof (hour_range t). pose proof (minute_range t).
    assert (P : forall n, 0 <= n < 100 -> In c (chars (two n)) -> plain_char c).
    { intros n HN I. apply two_digits, digit_facts in I; [|exact HN]. unfold plain_char. tauto. }
    rewrite !chars_app, !in_app_iff in H. destruct H as [H|[H|[H|[H|H]]]]; try (eapply P; [|exact H]; lia); try (destruct H as [<-|[]]; repeat split; discriminate).
    eapply date_text_plain; eauto.
Qed.

(** ** dictionaries *)
Lemma dset_fresh {A} k (v : A) d : ~ In k (map fst d) -> dset k v d = d ++ [(k, v)].
Proof.
  induction d as [|[k' v'] d IH]; cbn; intro N; [reflexivity|]. destruct (String.eqb_spec k' k) as [->|]; [exfalso; auto|]. rewrite IH; auto.
Qed.
Lemma dset_assoc {A} k (v : A) d k' : assoc k' (dset k v d) = if String.eqb k k' then Some v else assoc k' d.
Proof.
  induction d as [|[a b] d IH]; cbn; [destruct (String.eqb k k'); reflexivity|]. destruct (String.eqb_spec a k) as [->|N]; cbn.
  - destruct (String.eqb k k'); reflexivity.
  - rewrite IH. destruct (String.eqb_spec a k') as [->|]; [|reflexivity]. destruct (String.eqb_spec k k'); [congruence|reflexivity].
Qed.
Lemma dset_keys {A} k (v : A) d : map fst (dset k v d) = if existsb (String.eqb k) (map fst d) then map fst d else map fst d ++ [k].
Proof.
  induction d as [|[a b] d IH]; cbn [dset map fst existsb app]; [reflexivity|]. rewrite (String.eqb_sym k a). destruct (String.eqb_spec a k) as [->|N]; cbn [orb map fst]; [reflexivity|].
  rewrite IH. destruct (existsb _ _); reflexivity.
Qed.
Lemma existsb_In k l : existsb (String.eqb k) l = true <-> In k l.
Proof. rewrite existsb_exists. split; [intros (x & H & E); apply String.eqb_eq in E; congruence|intro H; exists k; split; [exact H|apply String.eqb_refl]]. Qed.
Lemma NoDup_snoc {A} (l : list A) a : NoDup l -> ~ In a l -> NoDup (l ++ [a]).
Proof.
  intros D N. induction D as [|b l H D IH]; cbn; [repeat constructor; auto|]. constructor.
  - rewrite in_app_iff. intros [I|[<-|[]]]; [auto|]. apply N. left. reflexivity.
  - apply IH. intro I. apply N. right. exact I.
Qed.
Lemma dset_NoDup {A} k (v : A) d : NoDup (map fst d) -> NoDup (map fst (dset k v d)).
Proof.
  intro D. rewrite dset_keys. destruct (existsb _ _) eqn:E; [exact D|]. apply NoDup_snoc; [exact D|].
  intro I. apply existsb_In in I. congruence.
Qed.
Lemma assoc_In {A} k (v : A) d : NoDup (map fst d) -> (assoc k d = Some v <-> In (k, v) d).
Proof.
  induction d as [|[a b] d IH]; cbn; intro D; [split; [discriminate|contradiction]|]. inversion D; subst. destruct (String.eqb_spec a k) as [->|N].
  - split; [intro E; injection E as ->; auto|]. intros [E|I]; [congruence|]. exfalso. apply H1. apply (in_map fst) in I. exact I.
  - rewrite IH by assumption. split; [auto|]. intros [E|I]; [congruence|exact I].
Qed.
Lemma dset_In {A} k (v : A) d k' v' : NoDup (map fst d) -> (In (k', v') (dset k v d) <-> (k' = k /\ v' = v) \/ (k' <> k /\ In (k', v') d)).
Proof.
  intro D. rewrite <- !assoc_In by (auto using dset_NoDup). rewrite dset_assoc. destruct (String.eqb_spec k k') as [->|N].
  - split; [intro E; injection E as ->; auto|intros [[_ ->]|[N _]]; congruence].
  - split; [intro E; right; auto|intros [[-> _]|[_ E]]; congruence].
Qed.

(** ** the header *)
Definition line_of (p : string * string) : string := (fst p ++ " = " ++ snd p)%string.
Definition entry_of (p : string * string) : string * string := (strip (fst p), strip (until "="%char (snd p))).
Definition collect (m h : meta) : meta := fold_left (fun h p => dset (fst (entry_of p)) (snd (entry_of p)) h) m h.
Lemma line_not s l : In "="%char (chars l) -> without "="%char s -> String.eqb (strip l) s = false.
Proof.
  intros I W. destruct (String.eqb_spec (strip l) s) as [E|]; [|reflexivity]. exfalso. apply W. rewrite <- E. apply strip_keeps; [exact I|]. unfold white. cbn. intuition discriminate.
Qed.
Lemma line_eq p : In "="%char (chars (line_of p)).
Proof. unfold line_of. rewrite !chars_app, !in_app_iff. right. left. right. left. reflexivity. Qed.
Lemma not_in_lit (c : ascii) s : existsb (Ascii.eqb c) (chars s) = false -> without c s.
Proof. intros H I. assert (existsb (Ascii.eqb c) (chars s) = true) by (apply existsb_exists; exists c; split; [exact I|apply Ascii.eqb_refl]). congruence. Qed.
Lemma white_blank : Forall white (chars " ").
Proof. constructor; [apply is_space_white; reflexivity|constructor]. Qed.
Lemma header_read m rest : Forall (fun p => without "="%char (fst p)) m -> forall h,
  read_header true h (map line_of m ++ "[DATA]" :: rest) = Ok (collect m h, Some rest).
Proof.
  intro F. induction F as [|[k v] m W F IH]; intro h; [reflexivity|]. cbn [map app read_header].
  rewrite !line_not by (apply line_eq || (apply not_in_lit; reflexivity)). cbn [fst] in W.
  assert (E : line_of (k, v) = ((k ++ " ") ++ String "="%char (" " ++ v))%string) by (unfold line_of; cbn [fst snd]; rewrite sapp_assoc; reflexivity).
  assert (W' : without "="%char (k ++ " ")%string) by (apply without_app; split; [exact W|apply not_in_lit; reflexivity]).
  rewrite E, after_app, until_app by exact W'. unfold collect. cbn [fold_left]. fold (collect m).
  assert (E1 : strip (k ++ " ") = strip k).
  { rewrite <- (strip_around "" k " "); [reflexivity|constructor|exact white_blank]. }
  assert (E2 : strip (until "="%char (" " ++ v)) = strip (until "="%char v)).
  { change (until "="%char (" " ++ v)) with (" " ++ until "="%char v)%string. rewrite <- (sapp_nil (until "="%char v)). rewrite (strip_around " " (until "="%char v) ""); [rewrite sapp_nil; reflexivity|exact white_blank|constructor]. }
  rewrite E1, E2. exact (IH _).
Qed.
Lemma collect_assoc k v m : (forall p, In p m -> fst (entry_of p) = k -> snd (entry_of p) = v) -> (exists p, In p m /\ fst (entry_of p) = k) ->
  forall h, assoc k (collect m h) = Some v.
Proof.
  assert (S0 : forall m, (forall p, In p m -> fst (entry_of p) = k -> snd (entry_of p) = v) -> forall h, assoc k h = Some v -> assoc k (collect m h) = Some v).
  { clear. induction m as [|p m IH]; intros A h H; [exact H|]. change (collect (p :: m) h) with (collect m (dset (fst (entry_of p)) (snd (entry_of p)) h)).
    apply IH; [intros q Q; apply A; right; exact Q|]. rewrite dset_assoc. destruct (String.eqb_spec (fst (entry_of p)) k) as [E|]; [|exact H].
    f_equal. apply A; [left; reflexivity|exact E]. }
  induction m as [|p m IH]; intros A (q & I & E) h; [contradiction|].
  change (collect (p :: m) h) with (collect m (dset (fst (entry_of p)) (snd (entry_of p)) h)).
  destruct I as [->|I].
  - apply S0; [intros r R; apply A; right; exact R|]. rewrite dset_assoc, E, String.eqb_refl. f_equal. apply A; [left; reflexivity|exact E].
  - apply IH; [intros r R; apply A; right; exact R|]. exists q. auto.
Qed.
Lemma collect_distinct m : forall h, NoDup (map fst h ++ map (fun p => fst (entry_of p)) m) -> collect m h = h ++ map entry_of m.
Proof.
  induction m as [|p m IH]; intros h D; [cbn; rewrite app_nil_r; reflexivity|].
  change (collect (p :: m) h) with (collect m (dset (fst (entry_of p)) (snd (entry_of p)) h)). cbn [map] in D.
  rewrite dset_fresh.
  - rewrite IH; [rewrite <- app_assoc; cbn [map app]; destruct (entry_of p); reflexivity|]. rewrite map_app, <- app_assoc. exact D.
  - apply NoDup_remove_2 in D. intro I. apply D. apply in_or_app. left. exact I.
Qed.

(** ** the table *)
Lemma map_nth_seq {A B} (f : A -> B) (d : A) (l : list A) : map (fun i => f (nth i l d)) (seq 0 (List.length l)) = map f l.
Proof.
  induction l as [|a l IH]; [reflexivity|]. cbn [List.length seq map]. f_equal. rewrite <- seq_shift, map_map. exact IH.
Qed.
Lemma all_some_map {A B} (f : A -> option B) (g : A -> B) l : (forall a, In a l -> f a = Some (g a)) -> all_some (map f l) = Some (map g l).
Proof.
  induction l as [|a l IH]; intro H; [reflexivity|]. cbn. rewrite H by (left; reflexivity). rewrite IH; [reflexivity|]. intros b B0. apply H. right. exact B0.
Qed.
Definition back_of (x : xr) : xr := match cell (fmt2 x) with Some y => y | None => NaN end.
Lemma back_of_ok x : cell (fmt2 x) = Some (back_of x) /\ number_back x (back_of x).
Proof. unfold back_of. destruct (cell_fmt2 x) as (y & -> & H). auto. Qed.
Definition filled (nodata x : xr) : xr := if xisnan x then nodata else x.
Lemma filled_ok nodata x : cell_back nodata x (back_of (filled nodata x)).
Proof. destruct x; cbn [filled xisnan cell_back]; apply back_of_ok. Qed.
Definition floor_of (mode : string) (t : Z) : Z := if String.eqb mode "d" then whole_day t else whole_minute t.
Lemma stamp_format mode f t : time_format mode = Some f -> four_digit_year t -> stamp (f t) = Some (floor_of mode t).
Proof.
  unfold time_format, floor_of. intros E Y. destruct (String.eqb mode "d"); [|destruct (String.eqb mode "h"); [|discriminate]];
    apply (f_equal (fun o => match o with Some g => g t | None => "" end)) in E; cbv beta iota in E; rewrite <- E; [apply stamp_d|apply stamp_h]; exact Y.
Qed.
Lemma stamp_nonempty s z : stamp s = Some z -> s <> "".
Proof. intros H ->. discriminate. Qed.
Lemma xmul_one x : xmul x (Fin 1) = x.
Proof. destruct x; cbn; try reflexivity; [f_equal; ring|..]; (destruct (Reqb_spec 1 0); [lra|]); try reflexivity; destruct (Rltb_spec 0 1); destruct (Rltb_spec 1 0); try lra; reflexivity. Qed.
Lemma has_dup_str_false l : NoDup l -> has_dup_str l = false.
Proof.
  induction 1 as [|a l N D IH]; [reflexivity|]. cbn. rewrite IH, orb_false_r. destruct (existsb (String.eqb a) l) eqn:E; [|reflexivity]. apply existsb_In in E. contradiction.
Qed.
Lemma row_flat pad cells : Forall (fun w => flat w) cells -> forall j, flat (row_text pad j cells).
Proof.
  assert (SP : forall n, flat (spaces n)). { induction n; [split; intros []|]. cbn [spaces]. apply flat_cons. repeat split; try discriminate; apply IHn. }
  intro F. induction F as [|w ws W F IH]; intro j; cbn [row_text]; [split; intros []|]. apply flat_app. split; [apply SP|]. apply flat_app. split; [exact W|].
  destruct ws; [split; intros []|]. apply flat_app. split; [split; apply not_in_lit; reflexivity|apply IH].
Qed.
Lemma row_nonempty pad w ws j : w <> "" -> row_text pad j (w :: ws) <> "".
Proof.
  intros N E. apply (f_equal chars) in E. cbn [row_text] in E. rewrite !chars_app in E. apply app_eq_nil in E as [_ E]. apply app_eq_nil in E as [E _]. apply N, chars_inj, E.
Qed.
Definition table_cols (cols : list (string * list xr)) : list (string * column) := map (fun c => (fst c, CNum (snd c))) cols.
Definition shown (nodata : xr) (cols : list (string * list xr)) : list (string * list xr) :=
  map (fun c => (fst c, map (fun x => back_of (filled nodata x)) (snd c))) cols.
Lemma plain_solid w : (forall c, In c (chars w) -> plain_char c) -> solid is_blank w /\ flat w.
Proof.
  intro H. split; [intros c I; apply H, I|]. split; intro I; apply H in I; unfold plain_char in I; tauto.
Qed.
(** the printed rows and how they are read *)
Section Table.
  Variables (pad : nat -> nat -> nat) (nodata : xr) (mode : string) (f : Z -> string) (index : list Z) (cols : list (string * list xr)).
  Hypothesis HF : time_format mode = Some f.
  Hypothesis HY : Forall four_digit_year index.
  Hypothesis HN : index <> [].
  Let all := ("timestamp", CText (map f index)) :: table_cols cols.
  Let cells (i : nat) := map (fun c => cell_text nodata (snd c) i) all.
  Lemma cells_eq i : (i < List.length index)%nat -> cells i = f (nth i index 0) :: map (fun c => fmt2 (filled nodata (nth i (snd c) NaN))) cols.
  Proof.
    intro L. unfold cells, all, table_cols. cbn [map fst snd cell_text]. rewrite map_map. f_equal.
    rewrite nth_indep with (d' := f 0) by (rewrite map_length; exact L). apply map_nth.
  Qed.
  Lemma year_nth i : (i < List.length index)%nat -> four_digit_year (nth i index 0).
  Proof. intro L. rewrite Forall_forall in HY. apply HY, nth_In, L. Qed.
  Lemma cells_plain i w : (i < List.length index)%nat -> In w (cells i) -> (forall c, In c (chars w) -> plain_char c) /\ w <> "".
  Proof.
    intros L I. rewrite cells_eq in I by exact L. destruct I as [<-|I].
    - split; [intros c; apply (stamp_plain mode f); auto using year_nth|]. eapply stamp_nonempty, stamp_format; eauto using year_nth.
    - apply in_map_iff in I as (c & <- & _). split; [apply fmt2_plain|apply fmt2_nonempty].
  Qed.
  Definition row_back (i : nat) : Z * list xr := (floor_of mode (nth i index 0), map (fun c => back_of (filled nodata (nth i (snd c) NaN))) cols).
  Lemma data_lines : lines (data_text pad nodata (List.length index) all) = map (fun i => row_text (pad i) 0 (cells i)) (seq 0 (List.length index)).
  Proof.
    assert (E : data_text pad nodata (List.length index) all = String.concat (String LF "") (map (fun i => row_text (pad i) 0 (cells i)) (seq 0 (List.length index)))).
    { unfold data_text. destruct index; [congruence|]. reflexivity. }
    rewrite E. apply lines_concat.
    - apply Forall_map, Forall_forall. intros i I. apply in_seq in I. apply row_flat. apply Forall_forall. intros w W.
      apply cells_plain in W as [P _]; [|lia]. apply plain_solid, P.
    - apply Forall_map, Forall_forall. intros i I. apply in_seq in I. rewrite cells_eq by lia. apply row_nonempty.
      eapply stamp_nonempty, stamp_format; eauto. apply year_nth. lia.
  Qed.
  Lemma rows_read : read_rows 0 (S (List.length cols)) (lines (data_text pad nodata (List.length index) all)) = Some (map row_back (seq 0 (List.length index))).
  Proof.
    rewrite data_lines. unfold read_rows. rewrite map_map.
    assert (E : map (fun i => words is_blank (row_text (pad i) 0 (cells i))) (seq 0 (List.length index)) = map cells (seq 0 (List.length index))).
    { apply map_ext_in. intros i I. apply in_seq in I. apply words_row. apply Forall_forall. intros w W. apply cells_plain in W as [P N]; [|lia]. split; [apply plain_solid, P|exact N]. }
    rewrite E. assert (E' : filter (fun ts : list string => match ts with [] => false | _ => true end) (map cells (seq 0 (List.length index))) = map cells (seq 0 (List.length index))).
    { clear. induction (seq 0 (List.length index)) as [|i l IH]; [reflexivity|]. cbn [map filter]. rewrite IH. reflexivity. }
    rewrite E', map_map. apply all_some_map. intros i I. apply in_seq in I. rewrite cells_eq by lia. cbn [List.length]. rewrite map_length, Nat.eqb_refl.
    cbn [nth]. rewrite (stamp_format mode f) by (auto; apply year_nth; lia). unfold delete_at. cbn [firstn skipn app]. rewrite map_map.
    rewrite all_some_map with (g := fun c => back_of (filled nodata (nth i (snd c) NaN))); [reflexivity|]. intros c _. apply back_of_ok.
  Qed.
  Hypothesis HL : Forall (fun c => List.length (snd c) = List.length index) cols.
  Lemma columns_shown : map (fun j => (nth j (map fst cols) "", map (fun row => xmul (nth j (snd row) NaN) (nth j (repeat (Fin 1) (List.length cols)) NaN)) (map row_back (seq 0 (List.length index)))))
    (seq 0 (List.length (map fst cols))) = shown nodata cols.
  Proof.
    rewrite map_length. unfold shown. 
    rewrite <- (map_nth_seq (fun c : string * list xr => (fst c, map (fun x => back_of (filled nodata x)) (snd c))) ("", [])).
    apply map_ext_in. intros j J. apply in_seq in J. f_equal.
    - rewrite <- (map_nth fst). reflexivity.
    - rewrite map_map. transitivity (map (fun i => back_of (filled nodata (nth i (snd (nth j cols ("", []))) NaN))) (seq 0 (List.length index))).
      + apply map_ext. intro i. cbn [row_back snd]. rewrite nth_indep with (l := repeat _ _) (d' := Fin 1) by (rewrite repeat_length; lia). rewrite nth_repeat.
        rewrite xmul_one. rewrite nth_indep with (d' := back_of (filled nodata (nth i (snd ("", @nil xr)) NaN))) by (rewrite map_length; lia).
        rewrite (map_nth (fun c : string * list xr => back_of (filled nodata (nth i (snd c) NaN)))). reflexivity.
      + rewrite Forall_forall in HL. rewrite <- (HL (nth j cols ("", []))) by (apply nth_In; lia).
        apply (map_nth_seq (fun x => back_of (filled nodata x))).
  Qed.
End Table.

(** ** writing and reading in one go *)
Lemma word_solid w : word w -> solid is_space w /\ flat w /\ w <> "" /\ without "="%char w.
Proof.
  intros (N & W & E & _). repeat split; auto.
  - intros c I. apply is_space_false, W, I.
  - intro I. apply W in I. apply I. apply is_space_white. reflexivity.
  - intro I. apply W in I. apply I. apply is_space_white. reflexivity.
Qed.
Lemma concat_flat (ws : list string) : Forall (fun w => flat w /\ without "="%char w) ws -> flat (String.concat " " ws) /\ without "="%char (String.concat " " ws).
Proof.
  intro F. induction F as [|w ws [W E] F IH]; [split; [split|]; intros []|]. destruct ws as [|w' ws]; [cbn; auto|].
  change (String.concat " " (w :: w' :: ws)) with (w ++ " " ++ String.concat " " (w' :: ws))%string.
  rewrite !flat_app, !without_app. repeat split; try (apply IH); try (apply W); try assumption; apply not_in_lit; reflexivity.
Qed.
Lemma units_flat n : flat (repeat_text "1 " n) /\ without "="%char (repeat_text "1 " n).
Proof.
  induction n as [|n [IH1 IH2]]; [split; [split|]; intros []|]. cbn [repeat_text]. rewrite flat_app, without_app. repeat split; auto; try apply IH1; apply not_in_lit; reflexivity.
Qed.
Lemma rev_involutive_snoc {A} (l : list A) a : last_first (l ++ [a]) = a :: l.
Proof. unfold last_first. rewrite rev_app_distr. cbn. rewrite rev_involutive. reflexivity. Qed.
Lemma position_head n l : position n (n :: l) = Some 0%nat.
Proof. cbn. rewrite String.eqb_refl. reflexivity. Qed.
Definition new_meta (names : list string) (m : meta) : meta :=
  dset "units_multiplier" (repeat_text "1 " (S (List.length names))) (dset "fields" (String.concat " " ("timestamp" :: names)) m).
Lemma new_meta_In names m k v : NoDup (map fst m) -> In (k, v) (new_meta names m) ->
  (k = "units_multiplier" /\ v = repeat_text "1 " (S (List.length names))) \/ (k = "fields" /\ v = String.concat " " ("timestamp" :: names)) \/ In (k, v) m.
Proof.
  intros D H. unfold new_meta in H. apply dset_In in H; [|apply dset_NoDup, D]. destruct H as [H|[_ H]]; [auto|]. apply dset_In in H; [|exact D]. tauto.
Qed.
Section Trip.
  Variables (pad : nat -> nat -> nat) (nodata : xr) (mode : string) (check : bool) (f : Z -> string) (fr : dframe xr) (m : meta).
  Let cols := (if check then drop_nan else fun c => c) (by_mode mode write_d write_h (f_cols fr)).
  Hypothesis HF : time_format mode = Some f.
  Hypothesis HY : Forall four_digit_year (f_index fr).
  Hypothesis HN : f_index fr <> [].
  Hypothesis HL : Forall (fun c => List.length (snd c) = List.length (f_index fr)) cols.
  Hypothesis HW : Forall (fun c => word (fst c)) cols.
  Hypothesis HD : NoDup (map fst cols).
  Hypothesis HT : ~ In "timestamp" (map fst cols).
  Hypothesis HM : header_ok m.
  Let all := ("timestamp", CText (map f (f_index fr))) :: table_cols cols.
  Let m' := new_meta (map fst cols) m.
  Let file := (header_text m' ++ nl "[DATA]" ++ data_text pad nodata (List.length (f_index fr)) all)%string.
  Lemma names_words : Forall (fun w => word w) ("timestamp" :: map fst cols).
  Proof.
    constructor; [|apply Forall_map, HW]. split; [discriminate|]. split; [|split; apply not_in_lit; reflexivity].
    intros c I. apply is_space_false. cbn in I. repeat (destruct I as [<-|I]; [reflexivity|]). contradiction.
  Qed.
  Lemma names_back : words is_space (String.concat " " ("timestamp" :: map fst cols)) = "timestamp" :: map fst cols.
  Proof. apply words_concat; [reflexivity|]. eapply Forall_impl; [|apply names_words]. intros w W. apply word_solid in W. tauto. Qed.
  Lemma all_names : map fst all = "timestamp" :: map fst cols.
  Proof. unfold all, table_cols. cbn [map fst]. rewrite map_map. reflexivity. Qed.
  Lemma write_ok : write_smet pad fr m nodata mode check = ({| w_file := file; w_meta := m'; w_frame := fr |}, Ok tt).
  Proof.
    unfold write_smet. rewrite HF. cbv zeta. 
    replace (if check then drop_nan (by_mode mode write_d write_h (f_cols fr)) else by_mode mode write_d write_h (f_cols fr)) with cols
      by (unfold cols; destruct check; reflexivity).
    rewrite (dset_fresh "timestamp" (CText (map f (f_index fr)))) by (rewrite map_map; exact HT). rewrite rev_involutive_snoc. fold (table_cols cols).
    change (("timestamp", CText (map f (f_index fr))) :: table_cols cols) with all. rewrite all_names, names_back. cbn [List.length].
    destruct (f_index fr) eqn:EI; [congruence|]. unfold file, m', new_meta, all. rewrite ?EI. reflexivity.
  Qed.
  Lemma meta_ok : Forall (fun p => flat (fst p) /\ flat (snd p) /\ without "="%char (fst p)) m'.
  Proof.
    apply Forall_forall. intros [k v] I. apply new_meta_In in I; [|apply (ho_keys m HM)]. destruct I as [[-> ->]|[[-> ->]|I]].
    - split; [split; apply not_in_lit; reflexivity|]. split; [apply units_flat|apply not_in_lit; reflexivity].
    - split; [split; apply not_in_lit; reflexivity|]. split; [|apply not_in_lit; reflexivity]. cbn [snd]. apply concat_flat.
      eapply Forall_impl; [|apply names_words]. intros w W. apply word_solid in W. tauto.
    - pose proof (ho_lines m HM) as L. rewrite Forall_forall in L. apply L in I as ((A & B & _) & (C & D & _) & E). repeat split; assumption.
  Qed.
  Lemma file_lines : lines file = "SMET 1.1 ASCII" :: "[HEADER]" :: map line_of m' ++ "[DATA]" :: lines (data_text pad nodata (List.length (f_index fr)) all).
  Proof.
    unfold file, header_text. rewrite !sapp_assoc. rewrite lines_nl by (split; apply not_in_lit; reflexivity). rewrite lines_nl by (split; apply not_in_lit; reflexivity).
    replace (map (fun p : string * string => nl (fst p ++ " = " ++ snd p)) m') with (map nl (map line_of m')) by (rewrite map_map; reflexivity).
    rewrite lines_block.
    - rewrite lines_nl by (split; apply not_in_lit; reflexivity). reflexivity.
    - apply Forall_map. eapply Forall_impl; [|apply meta_ok]. intros [k v] (A & B & _). unfold line_of. cbn [fst snd]. rewrite !flat_app. repeat split; try apply A; try apply B; apply not_in_lit; reflexivity.
  Qed.
  Lemma header_ok_read : read_header false [] (lines file) = Ok (collect m' [], Some (lines (data_text pad nodata (List.length (f_index fr)) all))).
  Proof.
    rewrite file_lines. cbn [read_header]. change (String.eqb (strip "SMET 1.1 ASCII") "[HEADER]") with false. change (String.eqb (strip "SMET 1.1 ASCII") "[DATA]") with false.
    change (String.eqb (strip "[HEADER]") "[HEADER]") with true. cbv iota. apply header_read. eapply Forall_impl; [|apply meta_ok]. intros p (_ & _ & H). exact H.
  Qed.
  Lemma key_fields k : strip k = "fields" -> (k = "fields" \/ exists v, In (k, v) m) -> k = "fields".
  Proof. intros E [->|(v & I)]; [reflexivity|]. apply (ho_fields m HM (k, v) I). apply strip_iff, E. Qed.
  Lemma assoc_fields : exists s, assoc "fields" (collect m' []) = Some s /\ words is_space s = "timestamp" :: map fst cols.
  Proof.
    exists (strip (String.concat " " ("timestamp" :: map fst cols))). split; [|rewrite words_strip; apply names_back].
    assert (DM : NoDup (map fst m')) by (apply dset_NoDup, dset_NoDup, (ho_keys m HM)).
    assert (IN : In ("fields", String.concat " " ("timestamp" :: map fst cols)) m').
    { apply dset_In; [apply dset_NoDup, (ho_keys m HM)|]. right. split; [discriminate|]. apply dset_In; [apply (ho_keys m HM)|]. auto. }
    apply collect_assoc.
    - intros [k v] I E. unfold entry_of in *. cbn [fst snd] in *.
      assert (k = "fields").
      { pose proof (new_meta_In _ _ _ _ (ho_keys m HM) I) as J. destruct J as [[-> _]|[[-> _]|J]]; [discriminate E|reflexivity|]. apply key_fields; eauto. }
      subst k. pose proof (proj2 (assoc_In _ _ _ DM) I) as A1. rewrite (proj2 (assoc_In _ _ _ DM) IN) in A1. apply (f_equal (fun o => match o with Some v => v | None => "" end)) in A1. cbv beta iota in A1. rewrite <- A1. rewrite until_self; [reflexivity|].
      apply concat_flat. eapply Forall_impl; [|apply names_words]. intros w W. apply word_solid in W. tauto.
    - eexists. split; [exact IN|reflexivity].
  Qed.
  Lemma assoc_units : exists s, assoc "units_multiplier" (collect m' []) = Some s /\ words is_space s = repeat "1" (S (List.length cols)).
  Proof.
    exists (strip (repeat_text "1 " (S (List.length (map fst cols))))). split; [|rewrite words_strip, words_units, map_length; reflexivity].
    assert (DM : NoDup (map fst m')) by (apply dset_NoDup, dset_NoDup, (ho_keys m HM)).
    assert (IN : In ("units_multiplier", repeat_text "1 " (S (List.length (map fst cols)))) m').
    { apply dset_In; [apply dset_NoDup, (ho_keys m HM)|]. auto. }
    apply collect_assoc.
    - intros [k v] I E. unfold entry_of in *. cbn [fst snd] in *.
      assert (k = "units_multiplier").
      { pose proof (new_meta_In _ _ _ _ (ho_keys m HM) I) as J. destruct J as [[-> _]|[[-> _]|J]]; [reflexivity|discriminate E|].
        apply (ho_units m HM (k, v) J). apply strip_iff, E. }
      subst k. pose proof (proj2 (assoc_In _ _ _ DM) I) as A1. rewrite (proj2 (assoc_In _ _ _ DM) IN) in A1. apply (f_equal (fun o => match o with Some v => v | None => "" end)) in A1. cbv beta iota in A1. rewrite <- A1. rewrite until_self; [reflexivity|]. apply units_flat.
    - eexists. split; [exact IN|reflexivity].
  Qed.
  Lemma read_ok e rmode : read_smet e rmode file = Some (if has_del_index_name e
    then Ok (collect m' [], {| f_index := map (floor_of mode) (f_index fr); f_cols := by_mode rmode read_d read_h (shown nodata cols) |})
    else Err AttributeError).
  Proof.
    unfold read_smet. cbv zeta. rewrite header_ok_read. destruct assoc_fields as (s1 & -> & W1). destruct assoc_units as (s2 & -> & W2). rewrite W1, W2.
    assert (U : all_some (map number (repeat "1" (S (List.length cols)))) = Some (repeat (Fin 1) (S (List.length cols)))).
    { rewrite all_some_map with (g := fun _ => Fin 1).
      - f_equal. generalize (S (List.length cols)). induction n; cbn; congruence.
      - intros a A. apply repeat_spec in A. subst. reflexivity. }
    rewrite U. rewrite has_dup_str_false by (constructor; assumption). rewrite position_head. cbn [List.length]. rewrite map_length.
    unfold all. rewrite (rows_read pad nodata mode f (f_index fr) cols HF HY HN).
    assert (NE : map (row_back nodata mode (f_index fr) cols) (seq 0 (List.length (f_index fr))) <> []) by (destruct (f_index fr); [congruence|discriminate]).
    destruct (map (row_back nodata mode (f_index fr) cols) (seq 0 (List.length (f_index fr)))) as [|r rs] eqn:ER; [congruence|].
    unfold delete_at. cbn [firstn skipn app tl repeat]. rewrite repeat_length, map_length, Nat.eqb_refl. cbn [negb].
    destruct (has_del_index_name e); cbn [negb]; [|reflexivity]. apply (f_equal2 (fun a b => Some (Ok (collect m' [], Build_dframe a b)))); rewrite <- ER.
    - rewrite map_map. cbn [row_back fst]. apply (map_nth_seq (floor_of mode)).
    - f_equal. rewrite <- (columns_shown nodata mode (f_index fr) cols HL). rewrite map_length. reflexivity.
  Qed.
End Trip.
