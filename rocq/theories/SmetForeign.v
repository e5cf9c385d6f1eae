(** Reading SMET files of any origin. *)
From Coq Require Import String Ascii ZArith NArith Reals List Bool Lia Lra DecimalString DecimalN.
From Verif Require Import Py Num Cal Series Frame SmetModel SpecSmet SmetProofs SpecForeign.
Import ListNotations.
Open Scope string_scope.
Open Scope Z_scope.
Open Scope list_scope.

Lemma blank_is_blank c : c = " "%char \/ c = "009"%char -> is_blank c = true /\ is_space c = true.
Proof. intros [->| ->]; split; reflexivity. Qed.
Lemma words_blank sp b r : (forall c, c = " "%char \/ c = "009"%char -> sp c = true) -> blank b -> words sp (b ++ r)%string = words sp r.
Proof.
  intros HS. induction b as [|c b IH]; intro B; [reflexivity|]. inversion B; subst. change (String c b ++ r)%string with (String c (b ++ r)).
  rewrite words_space by (apply HS; assumption). apply IH. assumption.
Qed.
Lemma words_spaced sp cells l : (forall c, c = " "%char \/ c = "009"%char -> sp c = true) ->
  Forall (fun w => solid sp w /\ w <> "") cells -> spaced cells l -> words sp l = cells.
Proof.
  intros HS F S. induction S as [b B|b c b' B B'|b c b' cs l B B' NE S IH].
  - rewrite <- (sapp_nil b), words_blank by assumption. reflexivity.
  - inversion F as [|? ? [H1 H2] _]; subst. rewrite words_blank by assumption. destruct b' as [|d b'].
    + rewrite sapp_nil. apply words_last; assumption.
    + inversion B'; subst. rewrite words_word by auto. f_equal. rewrite <- (sapp_nil b'), words_blank by assumption. reflexivity.
  - inversion F as [|? ? [H1 H2] F']; subst. rewrite words_blank by assumption. destruct b' as [|d b']; [congruence|].
    inversion B'; subst. change (String d b' ++ l)%string with (String d (b' ++ l)). rewrite words_word by auto. f_equal.
    rewrite words_blank by assumption. apply IH, F'.
Qed.
Lemma blank_plain b : blank b -> flat b /\ without "="%char b.
Proof.
  intro B. unfold blank in B. rewrite Forall_forall in B. repeat split; intro I; apply B in I as [I|I]; discriminate I.
Qed.
Lemma spaced_plain cells l : Forall (fun w => flat w /\ without "="%char w) cells -> spaced cells l -> flat l /\ without "="%char l.
Proof.
  intros F S. induction S as [b B|b c b' B B'|b c b' cs l B B' NE S IH]; [apply blank_plain, B|..];
    inversion F as [|? ? [H1 H2] F']; subst; destruct (blank_plain b B) as [X1 X2]; destruct (blank_plain b' B') as [Y1 Y2].
  - rewrite !flat_app, !without_app. tauto.
  - specialize (IH F'). rewrite !flat_app, !without_app. tauto.
Qed.
Lemma spaced_nonempty c cs l : c <> "" -> spaced (c :: cs) l -> l <> "".
Proof.
  intros N S E. assert (H : chars l = []) by (rewrite E; reflexivity). clear E. inversion S; subst; rewrite !chars_app in H;
    apply app_eq_nil in H as [_ H]; apply app_eq_nil in H as [H _]; apply N, chars_inj, H.
Qed.

(** ** numerals *)
Lemma digits_text d c : In c (chars (NilZero.string_of_uint d)) -> is_digit c.
Proof. destruct d; try apply uint_digits. cbn. intros [<-|[]]. exists 0. split; [lia|reflexivity]. Qed.
Lemma digits_nonempty d : NilZero.string_of_uint d <> "".
Proof. destruct d; discriminate. Qed.
Lemma digits_back d : uint_text (NilZero.string_of_uint d) = Some (Z.of_N (N.of_uint d)).
Proof. unfold uint_text. destruct d as [| | | | | | | | | |]; [reflexivity|..]; rewrite NilZero.usu by discriminate; reflexivity. Qed.
Lemma digits_length d : d <> Decimal.Nil -> String.length (NilZero.string_of_uint d) = Decimal.nb_digits d.
Proof.
  assert (G : forall d, String.length (NilEmpty.string_of_uint d) = Decimal.nb_digits d) by (induction d0; cbn; congruence).
  intro N. destruct d; [congruence|..]; apply G.
Qed.
Definition unsigned_text (n : numeral) : string :=
  (NilZero.string_of_uint (n_whole n) ++ match n_frac n with Decimal.Nil => "" | f => "." ++ NilZero.string_of_uint f end)%string.
Definition unsigned_value (n : numeral) : R := (digits (n_whole n) + digits (n_frac n) / 10 ^ Decimal.nb_digits (n_frac n))%R.
Lemma unsigned_head n : exists c t, unsigned_text n = String c t /\ is_digit c.
Proof.
  unfold unsigned_text. pose proof (digits_nonempty (n_whole n)) as NE. pose proof (digits_text (n_whole n)) as D.
  destruct (NilZero.string_of_uint (n_whole n)) as [|c t]; [congruence|]. exists c. eexists. split; [reflexivity|]. apply D. left. reflexivity.
Qed.
Lemma unsigned_numeral n : unsigned (unsigned_text n) = Some (Fin (unsigned_value n)).
Proof.
  unfold unsigned. destruct (unsigned_head n) as (c & t & E & DC).
  assert (NI : String.eqb (unsigned_text n) "inf" = false).
  { rewrite E. destruct (String.eqb_spec (String c t) "inf") as [Q|]; [|reflexivity]. injection Q as -> _. apply digit_facts in DC. tauto. }
  rewrite NI. clear E DC NI c t. unfold unsigned_text, unsigned_value.
  assert (W : without "."%char (NilZero.string_of_uint (n_whole n))) by (intro I; apply digits_text, digit_facts in I; tauto).
  destruct (n_frac n) eqn:EF.
  1:{ rewrite sapp_nil. rewrite (proj1 (after_none _ _) W), digits_back. do 2 f_equal. unfold digits. cbn. field. }
  all: match goal with |- context [String.append "." ?x] => change (String.append "." x) with (String "."%char x) end;
    rewrite after_app, until_app by exact W; rewrite !digits_back; do 2 f_equal; rewrite digits_length by discriminate; unfold digits;
    rewrite plus_IZR, mult_IZR, <- pow_IZR; field; apply pow_nonzero; lra.
Qed.
Lemma number_numeral n : number (numeral_text n) = Some (Fin (numeral_value n)).
Proof.
  unfold numeral_text, numeral_value. fold (unsigned_text n) (unsigned_value n). pose proof (unsigned_numeral n) as U. destruct (n_neg n).
  - transitivity (option_map xopp (unsigned (unsigned_text n))); [reflexivity|]. rewrite U. cbn [option_map xopp]. do 2 f_equal. lra.
  - cbn [append]. rewrite Rmult_1_l. destruct (unsigned_head n) as (c & t & E & DC). rewrite E in *. apply digit_facts in DC as (_ & _ & _ & _ & _ & ND & _ & NN).
    unfold number.
    assert (Q : (String c t =? "NaN")%string = false) by (destruct (String.eqb_spec (String c t) "NaN") as [Q|]; [injection Q as -> _; contradiction|reflexivity]).
    rewrite Q. destruct c as [[] [] [] [] [] [] [] []]; try exact U. exfalso. apply ND. reflexivity.
Qed.
Definition cell_of (n : numeral) : xr := if Reqb (numeral_value n) (-999) then NaN else Fin (numeral_value n).
Lemma cell_numeral n : cell (numeral_text n) = Some (cell_of n).
Proof. unfold cell. rewrite number_numeral. reflexivity. Qed.
Lemma cell_of_read n mu : cell_read n mu (xmul (cell_of n) (Fin (numeral_value mu))).
Proof. unfold cell_read, cell_of. destruct (Reqb_spec (numeral_value n) (-999)) as [E|E]; [left|right]; split; try assumption; reflexivity. Qed.
Lemma numeral_plain n c : In c (chars (numeral_text n)) -> plain_char c /\ c <> "="%char.
Proof.
  assert (D : forall d c, In c (chars (NilZero.string_of_uint d)) -> plain_char c /\ c <> "="%char).
  { intros d x I. apply digits_text in I. split; [apply digit_facts in I; unfold plain_char; tauto|]. destruct I as (k & K & ->).
    assert (X : In k [0;1;2;3;4;5;6;7;8;9]) by (cbn; lia). clear K. cbn in X. intuition (subst; discriminate). }
  unfold numeral_text. rewrite !chars_app, !in_app_iff. intros [I|[I|I]].
  - destruct (n_neg n); cbn in I; [|contradiction]. destruct I as [<-|[]]. split; [repeat split; discriminate|discriminate].
  - exact (D _ _ I).
  - destruct (n_frac n); [destruct I|..]; cbn [append] in I; (destruct I as [<-|I]; [split; [repeat split; discriminate|discriminate]|exact (D _ _ I)]).
Qed.
Lemma numeral_nonempty n : numeral_text n <> "".
Proof. unfold numeral_text. fold (unsigned_text n). destruct (unsigned_head n) as (c & t & E & _). rewrite E. destruct (n_neg n); discriminate. Qed.

(** ** the lines of the file *)
Lemma lines_file ls : Forall flat ls -> lines (String.concat "" (map line ls)) = ls.
Proof.
  intro F. pose proof (lines_block ls "" F) as H. change (lines "") with (@nil string) in H. rewrite sapp_nil, app_nil_r in H. exact H.
Qed.
Definition plain_line (p : string * string) : string := (fst p ++ "=" ++ snd p)%string.
Lemma plain_line_eq p : In "="%char (chars (plain_line p)).
Proof. unfold plain_line. rewrite !chars_app, !in_app_iff. right. left. left. reflexivity. Qed.
Lemma entries_read m rest : Forall (fun p => without "="%char (fst p)) m -> forall h,
  read_header true h (map plain_line m ++ "[DATA]" :: rest) = Ok (collect m h, Some rest).
Proof.
  intro F. induction F as [|[k v] m W F IH]; intro h; [reflexivity|]. cbn [map app read_header].
  rewrite !line_not by (apply plain_line_eq || (apply not_in_lit; reflexivity)). cbn [fst] in W.
  change (plain_line (k, v)) with (k ++ String "="%char v)%string.
  rewrite after_app, until_app by exact W. unfold collect. cbn [fold_left]. fold (collect m). exact (IH _).
Qed.
Lemma pre_read pre rest : Forall (fun l => ~ trimmed l "[HEADER]" /\ ~ trimmed l "[DATA]") pre ->
  read_header false [] (pre ++ "[HEADER]" :: rest) = read_header true [] rest.
Proof.
  intro F. induction F as [|l pre [H1 H2] F IH]; [reflexivity|]. cbn [app read_header].
  destruct (String.eqb_spec (strip l) "[HEADER]") as [Q|_]; [apply strip_iff in Q; contradiction|].
  destruct (String.eqb_spec (strip l) "[DATA]") as [Q|_]; [apply strip_iff in Q; contradiction|]. exact IH.
Qed.
Lemma single_flat s : single_line s -> flat s.
Proof. intros (A & B & _). split; assumption. Qed.
Lemma only_assoc m k v : only_entry m k v -> without "="%char v -> assoc k (collect m []) = Some (strip v).
Proof.
  intros (k' & I & T & U) W. apply collect_assoc.
  - intros p J E. unfold entry_of in *. cbn [fst snd] in *. apply strip_iff in E. rewrite (U p J E). cbn [snd]. rewrite until_self by exact W. reflexivity.
  - exists (k', v). split; [exact I|]. cbn [entry_of fst]. apply strip_iff, T.
Qed.
Lemma position_app n a b : ~ In n a -> position n (a ++ n :: b) = Some (List.length a).
Proof.
  induction a as [|x a IH]; intro N; cbn [app position List.length]; [rewrite String.eqb_refl; reflexivity|].
  destruct (String.eqb_spec x n) as [->|_]; [exfalso; apply N; left; reflexivity|]. rewrite IH by (intro I; apply N; right; exact I). reflexivity.
Qed.
Lemma delete_app {A} (a : list A) x b : delete_at (List.length a) (a ++ x :: b) = a ++ b.
Proof.
  unfold delete_at. rewrite firstn_app, firstn_all, Nat.sub_diag. cbn [firstn]. rewrite app_nil_r. f_equal.
  replace (S (List.length a)) with (List.length (a ++ [x])) by (rewrite app_length; cbn; lia).
  replace (a ++ x :: b) with ((a ++ [x]) ++ b) by (rewrite <- app_assoc; reflexivity). rewrite skipn_app, skipn_all, Nat.sub_diag. reflexivity.
Qed.
Lemma iso_same t : iso_minute t = (date_text t ++ "T" ++ two (hour_of t) ++ ":" ++ two (minute_of t))%string.
Proof. unfold iso_minute, date_text. rewrite !sapp_assoc. reflexivity. Qed.
Lemma iso_stamp t : four_digit_year t -> SmetModel.stamp (iso_minute t) = Some (whole_minute t).
Proof. intro Y. rewrite iso_same. apply stamp_h, Y. Qed.
Lemma iso_plain t c : four_digit_year t -> In c (chars (iso_minute t)) -> plain_char c.
Proof. intros Y. rewrite iso_same. apply (stamp_plain "h" (fun t => (date_text t ++ "T" ++ two (hour_of t) ++ ":" ++ two (minute_of t))%string) t c eq_refl Y). Qed.

(** ** the table *)
Lemma row_solid r w : four_digit_year (row_time r) -> In w (row_texts r) -> (solid is_blank w /\ flat w) /\ w <> "".
Proof.
  intros Y I. unfold row_texts in I. apply in_app_or in I. destruct I as [I|[I|I]].
  - apply in_map_iff in I as (n & <- & _). split; [apply plain_solid; intros c C; apply (numeral_plain n c C)|apply numeral_nonempty].
  - subst w. split; [apply plain_solid; intros c C; apply (iso_plain _ c Y C)|]. eapply stamp_nonempty, iso_stamp, Y.
  - apply in_map_iff in I as (n & <- & _). split; [apply plain_solid; intros c C; apply (numeral_plain n c C)|apply numeral_nonempty].
Qed.
Lemma row_words r l : four_digit_year (row_time r) -> spaced (row_texts r) l -> words is_blank l = row_texts r /\ flat l.
Proof.
  intros Y S. split.
  - apply (words_spaced is_blank); [intros c C; apply blank_is_blank, C| |exact S]. apply Forall_forall. intros w I. destruct (row_solid r w Y I) as [[A _] B]. split; assumption.
  - assert (G : forall cells l, Forall flat cells -> spaced cells l -> flat l).
    { clear. intros cells l F S. induction S as [b B|b c b' B B'|b c b' cs l B B' NE S IH]; [apply blank_plain, B|..]; inversion F; subst; rewrite !flat_app; repeat split;
        try apply (blank_plain b B); try apply (blank_plain b' B'); try (apply IH; assumption); assumption || (match goal with H : flat c |- _ => apply H end). }
    apply (G (row_texts r)); [|exact S]. apply Forall_forall. intros w I. apply (row_solid r w Y I).
Qed.
Definition row_read (r : row) : Z * list xr := (whole_minute (row_time r), map cell_of (row_numbers r)).
Lemma table_read nb nh rows data : Forall2 (fun r l => spaced (row_texts r) l) rows data -> Forall (fun r => four_digit_year (row_time r)) rows ->
  Forall (fun r : row => List.length (fst (fst r)) = nb /\ List.length (snd r) = nh) rows ->
  read_rows nb (S (nb + nh)) data = Some (map row_read rows) /\ Forall flat data.
Proof.
  intros D Y W. 
  assert (E : map (words is_blank) data = map row_texts rows /\ Forall flat data).
  { clear W. induction D as [|r l rows data S D IH]; [split; [reflexivity|constructor]|]. inversion Y; subst. destruct (row_words r l) as [E F]; [assumption..|].
    destruct IH as [E' F']; [assumption|]. cbn [map]. rewrite E, E'. split; [reflexivity|constructor; assumption]. }
  destruct E as [E F]. split; [|exact F]. unfold read_rows. rewrite E.
  assert (NE : filter (fun ts : list string => match ts with [] => false | _ => true end) (map row_texts rows) = map row_texts rows).
  { clear. induction rows as [|r rows IH]; [reflexivity|]. cbn [map filter]. rewrite IH. unfold row_texts. destruct (map numeral_text (fst (fst r))); reflexivity. }
  rewrite NE, map_map. apply all_some_map. intros r I. rewrite Forall_forall in W, Y. destruct (W r I) as [W1 W2]. pose proof (Y r I) as Yr.
  assert (L : List.length (row_texts r) = S (nb + nh)) by (unfold row_texts; rewrite app_length; cbn [List.length]; rewrite !map_length; lia).
  rewrite L, Nat.eqb_refl.
  assert (N : nth nb (row_texts r) "" = iso_minute (row_time r)).
  { unfold row_texts. rewrite app_nth2; rewrite map_length; [|lia]. rewrite W1, Nat.sub_diag. reflexivity. }
  rewrite N, iso_stamp by exact Yr.
  assert (DL : delete_at nb (row_texts r) = map numeral_text (row_numbers r)).
  { unfold row_texts, row_numbers. rewrite map_app. rewrite <- (delete_app (map numeral_text (fst (fst r))) (iso_minute (row_time r)) (map numeral_text (snd r))), map_length, W1. reflexivity. }
  rewrite DL, map_map. rewrite all_some_map with (g := cell_of); [reflexivity|]. intros n _. apply cell_numeral.
Qed.

Section File.
  Variables (pre : list string) (m : list (string * string)) (data before behind : list string) (mults : list numeral) (rows : list row).
  Hypothesis HS : smet_file pre m data before behind mults rows.
  Let names := before ++ behind.
  Definition columns_read : list (string * list xr) :=
    map (fun i => (nth i names "", map (fun r => xmul (nth i (map cell_of (row_numbers r)) NaN) (nth i (tl (map (fun n => Fin (numeral_value n)) mults)) NaN)) rows))
        (seq 0 (List.length names)).
  Lemma columns_word : Forall word (before ++ "timestamp" :: behind).
  Proof.
    pose proof (sf_words _ _ _ _ _ _ _ HS) as W. apply Forall_app in W as [W1 W2]. apply Forall_app. split; [exact W1|]. constructor; [|exact W2].
    split; [discriminate|]. split; [|split; apply not_in_lit; reflexivity].
    intros c I. apply is_space_false. cbn in I. repeat (destruct I as [<-|I]; [reflexivity|]). contradiction.
  Qed.
  Lemma read_file e mode : read_smet e mode (file_text pre m data) = Some (
    if negb (List.length names =? List.length (tl mults))%nat then Err ValueError
    else if negb (has_del_index_name e) then Err AttributeError
    else Ok (collect m [], {| f_index := map (fun r => whole_minute (row_time r)) rows; f_cols := by_mode mode read_d read_h columns_read |})).
  Proof.
    pose proof columns_word as CW. destruct HS as [P H FI UN W D R DA Y WI].
    destruct (table_read (List.length before) (List.length behind) rows data DA Y WI) as [TR FD].
    destruct FI as (vf & OF & SF). destruct UN as (vu & OU & SU).
    assert (FL : Forall flat (pre ++ "[HEADER]" :: map plain_line m ++ "[DATA]" :: data)).
    { apply Forall_app. split; [eapply Forall_impl; [|exact P]; intros l (Q & _); apply single_flat, Q|]. constructor; [split; apply not_in_lit; reflexivity|].
      apply Forall_app. split; [|constructor; [split; apply not_in_lit; reflexivity|exact FD]]. apply Forall_map. eapply Forall_impl; [|exact H].
      intros [k v] (A & B & _). unfold plain_line. cbn [fst snd] in *. rewrite !flat_app. split; [apply single_flat, A|]. split; [split; apply not_in_lit; reflexivity|apply single_flat, B]. }
    assert (RH : read_header false [] (lines (file_text pre m data)) = Ok (collect m [], Some data)).
    { unfold file_text. rewrite lines_file by exact FL. rewrite pre_read by (eapply Forall_impl; [|exact P]; intros l (_ & Q); exact Q).
      apply entries_read. eapply Forall_impl; [|exact H]. intros p (_ & _ & Q). exact Q. }
    assert (F1 : Forall (fun w => flat w /\ without "="%char w) (before ++ "timestamp" :: behind)) by (eapply Forall_impl; [|exact CW]; intros w Q; apply word_solid in Q; tauto).
    assert (F2 : Forall (fun w => solid is_space w /\ w <> "") (before ++ "timestamp" :: behind)) by (eapply Forall_impl; [|exact CW]; intros w Q; apply word_solid in Q; tauto).
    assert (F3 : Forall (fun w => flat w /\ without "="%char w) (map numeral_text mults)).
    { apply Forall_map, Forall_forall. intros n _. repeat split; intro I; apply numeral_plain in I; unfold plain_char in I; tauto. }
    assert (F4 : Forall (fun w => solid is_space w /\ w <> "") (map numeral_text mults)).
    { apply Forall_map, Forall_forall. intros n _. split; [|apply numeral_nonempty]. intros c I. apply numeral_plain in I. unfold plain_char in I. tauto. }
    unfold read_smet. cbv zeta. rewrite RH.
    rewrite (only_assoc m "fields" vf OF) by (apply (spaced_plain _ _ F1 SF)). rewrite (only_assoc m "units_multiplier" vu OU) by (apply (spaced_plain _ _ F3 SU)).
    rewrite !words_strip. rewrite (words_spaced is_space _ _ (fun c C => proj2 (blank_is_blank c C)) F2 SF). rewrite (words_spaced is_space _ _ (fun c C => proj2 (blank_is_blank c C)) F4 SU).
    rewrite map_map. rewrite all_some_map with (g := fun n => Fin (numeral_value n)) by (intros n _; apply number_numeral).
    rewrite has_dup_str_false by exact D. apply NoDup_remove in D as [_ ND]. rewrite position_app by (intro I; apply ND, in_or_app; left; exact I).
    replace (List.length (before ++ "timestamp" :: behind)) with (S (List.length before + List.length behind)) by (rewrite app_length; cbn [List.length]; lia).
    rewrite TR. assert (NR : map row_read rows <> []) by (intro Q; apply map_eq_nil in Q; contradiction).
    destruct (map row_read rows) as [|r0 rs] eqn:ER; [congruence|]. rewrite delete_app. fold names.
    replace (List.length (tl (map (fun n => Fin (numeral_value n)) mults))) with (List.length (tl mults)) by (destruct mults; cbn [tl map]; [reflexivity|rewrite map_length; reflexivity]).
    destruct (List.length names =? List.length (tl mults))%nat; cbn [negb]; [|reflexivity].
    destruct (has_del_index_name e); cbn [negb]; [|reflexivity]. rewrite <- ER. rewrite map_map.
    unfold columns_read. fold names. do 4 f_equal. f_equal. apply map_ext. intro i. rewrite map_map. reflexivity.
  Qed.
End File.
