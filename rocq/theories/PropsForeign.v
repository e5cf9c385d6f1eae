(** Property C115: reading SMET files that were not written by write_smet. *)
From Coq Require Import String Ascii ZArith NArith Reals List Bool Lia Lra DecimalString.
From Verif Require Import Py Num Cal Series Frame SmetModel SpecSmet SmetProofs SpecForeign SmetForeign.
Import ListNotations.
Open Scope string_scope.
Open Scope Z_scope.
Open Scope list_scope.

Lemma short_names mode {A} (cols : list (string * A)) : by_mode mode read_d read_h cols = map (fun c => (short_name mode (fst c), snd c)) cols.
Proof.
  unfold by_mode, rename, short_name.
  assert (D : forall n, rename_name read_d n = if string_dec n "TA" then "tmean" else if string_dec n "TMAX" then "tmax" else if string_dec n "TMIN" then "tmin" else
    if string_dec n "PSUM" then "precip" else if string_dec n "ISWR" then "glob" else if string_dec n "RH" then "hum" else if string_dec n "VW" then "wind" else n).
  { intro n. repeat (destruct (string_dec n _) as [->|]; [reflexivity|]). unfold rename_name, read_d. cbn [assoc].
    repeat match goal with |- context [String.eqb ?a n] => destruct (String.eqb_spec a n); [congruence|] end. reflexivity. }
  assert (H : forall n, rename_name read_h n = if string_dec n "TA" then "temp" else if string_dec n "PSUM" then "precip" else if string_dec n "ISWR" then "glob" else
    if string_dec n "RH" then "hum" else if string_dec n "VW" then "wind" else n).
  { intro n. repeat (destruct (string_dec n _) as [->|]; [reflexivity|]). unfold rename_name, read_h. cbn [assoc].
    repeat match goal with |- context [String.eqb ?a n] => destruct (String.eqb_spec a n); [congruence|] end. reflexivity. }
  destruct (String.eqb_spec mode "d") as [->|N1].
  - apply map_ext. intro c. rewrite D. reflexivity.
  - destruct (string_dec mode "d"); [contradiction|]. destruct (String.eqb_spec mode "h") as [->|N2].
    + apply map_ext. intro c. rewrite H. reflexivity.
    + destruct (string_dec mode "h"); [contradiction|]. rewrite <- (map_id cols) at 1. apply map_ext. intros [k v]. reflexivity.
Qed.

Section File.
  Variables (pre : list string) (m : list (string * string)) (data before behind : list string) (mults : list numeral) (rows : list row).
  Hypothesis HS : smet_file pre m data before behind mults rows.

  (** what is returned: the column at position p among those other than timestamp is multiplied by entry p + 1 (counted from 0) of
      units_multiplier *)
  Theorem C115_read : List.length mults = S (List.length (before ++ behind)) -> forall e mode, has_del_index_name e = true ->
    exists h fr, read_smet e mode (file_text pre m data) = Some (Ok (h, fr)) /\
      (forall k v, only_entry m k v -> without "="%char v -> exists v', assoc k h = Some v' /\ trimmed v v') /\
      f_index fr = map (fun r => whole_minute (row_time r)) rows /\
      map fst (f_cols fr) = map (short_name mode) (before ++ behind) /\
      forall p n col, nth_error (f_cols fr) p = Some (n, col) ->
        exists mu, nth_error mults (S p) = Some mu /\
          Forall2 (fun r y => exists x, nth_error (row_numbers r) p = Some x /\ cell_read x mu y) rows col.
  Proof.
    intros L e mode E. pose proof (read_file pre m data before behind mults rows HS e mode) as R. rewrite E in R.
    destruct mults as [|m0 ms] eqn:EM; [discriminate L|]. cbn [tl List.length] in *. injection L as L. rewrite L, Nat.eqb_refl in R. cbn [negb] in R.
    eexists. eexists. split; [exact R|]. split; [|split; [reflexivity|split]].
    - intros k v O W. exists (strip v). split; [exact (only_assoc m k v O W)|apply strip_trimmed].
    - cbn [f_cols]. rewrite short_names, map_map. unfold columns_read. rewrite map_map. cbn [fst]. apply (map_nth_seq (short_name mode) "").
    - cbn [f_cols]. intros p n col H. rewrite short_names in H. rewrite nth_error_map in H. unfold columns_read in H.
      assert (P : (p < List.length (before ++ behind))%nat).
      { destruct (Nat.lt_ge_cases p (List.length (before ++ behind))) as [|G]; [assumption|]. exfalso.
        rewrite (proj2 (nth_error_None _ p)) in H; [discriminate|]. rewrite map_length, seq_length. exact G. }
      rewrite nth_error_map in H. rewrite (nth_error_nth' _ 0%nat) in H by (rewrite seq_length; exact P). rewrite seq_nth in H by exact P.
      cbn [option_map plus fst snd] in H. injection H as <- <-.
      destruct (nth_error ms p) as [mu|] eqn:EU; [|apply nth_error_None in EU; lia]. exists mu. split; [exact EU|].
      assert (NU : nth p (map (fun n => Fin (numeral_value n)) ms) NaN = Fin (numeral_value mu)).
      { apply nth_error_nth. rewrite nth_error_map, EU. reflexivity. }
      cbn [map tl]. rewrite NU.
      pose proof (sf_widths _ _ _ _ _ _ _ HS) as W. clear - W P. induction W as [|r rows [W1 W2] W IH]; constructor; [|exact IH].
      assert (LR : (p < List.length (row_numbers r))%nat) by (unfold row_numbers; rewrite app_length in *; lia).
      destruct (nth_error (row_numbers r) p) as [x|] eqn:EX; [|apply nth_error_None in EX; lia]. exists x. split; [reflexivity|].
      rewrite (nth_error_nth (map cell_of (row_numbers r)) p NaN (x := cell_of x)) by (rewrite nth_error_map, EX; reflexivity). apply cell_of_read.
  Qed.
  (** too few or too many entries in units_multiplier *)
  Theorem C115_wrong_count : List.length mults <> S (List.length (before ++ behind)) -> mults <> [] -> forall e mode,
    read_smet e mode (file_text pre m data) = Some (Err ValueError).
  Proof.
    intros L N e mode. rewrite (read_file pre m data before behind mults rows HS e mode). destruct mults as [|m0 ms] eqn:EM; [congruence|]. cbn [tl List.length] in *.
    destruct (Nat.eqb_spec (List.length (before ++ behind)) (List.length ms)); [congruence|reflexivity].
  Qed.
  Theorem C115_current_pandas : List.length mults = S (List.length (before ++ behind)) -> forall e mode, has_del_index_name e = false ->
    read_smet e mode (file_text pre m data) = Some (Err AttributeError).
  Proof.
    intros L e mode E. rewrite (read_file pre m data before behind mults rows HS e mode), E. destruct mults as [|m0 ms] eqn:EM; [discriminate|]. cbn [tl List.length] in *.
    injection L as ->. rewrite Nat.eqb_refl. reflexivity.
  Qed.
End File.
Print Assumptions C115_read.
Print Assumptions C115_wrong_count.
Print Assumptions C115_current_pandas.

(** nodata, units_offset and every other entry of the header leave the data alone *)
Theorem C115_other_entries pre1 m1 pre2 m2 data before behind mults rows e mode : has_del_index_name e = true ->
  List.length mults = S (List.length (before ++ behind)) ->
  smet_file pre1 m1 data before behind mults rows -> smet_file pre2 m2 data before behind mults rows ->
  exists h1 h2 fr, read_smet e mode (file_text pre1 m1 data) = Some (Ok (h1, fr)) /\ read_smet e mode (file_text pre2 m2 data) = Some (Ok (h2, fr)).
Proof.
  intros E L S1 S2. pose proof (read_file pre1 m1 data before behind mults rows S1 e mode) as R1. pose proof (read_file pre2 m2 data before behind mults rows S2 e mode) as R2.
  rewrite E in R1, R2. destruct mults as [|m0 ms] eqn:EM; [discriminate L|]. cbn [tl List.length] in *. injection L as L. rewrite L, Nat.eqb_refl in R1, R2. cbn [negb] in R1, R2.
  eauto.
Qed.
Print Assumptions C115_other_entries.

(** a file with the time in the second column, a temperature in hundredths before it, a value -777 and its header *)
Definition num (neg : bool) (w f : Decimal.uint) : numeral := {| n_neg := neg; n_whole := w; n_frac := f |}.
Definition d_500 : Decimal.uint := Decimal.D5 (Decimal.D0 (Decimal.D0 Decimal.Nil)).
Definition d_777 : Decimal.uint := Decimal.D7 (Decimal.D7 (Decimal.D7 Decimal.Nil)).
Definition d_1 : Decimal.uint := Decimal.D1 Decimal.Nil.
Definition d_0 : Decimal.uint := Decimal.D0 Decimal.Nil.
Definition d_01 : Decimal.uint := Decimal.D0 (Decimal.D1 Decimal.Nil).
Definition ex_pre : list string := ["SMET 1.1 ASCII"].
Definition ex_header : list (string * string) :=
  [("station_id ", " 7"); ("nodata ", " -777"); ("fields ", " TA timestamp RH"); ("units_offset ", " 273.15 0 0"); ("units_multiplier ", " 0.01 1 1")].
Definition ex_mults : list numeral := [num false d_0 d_01; num false d_1 Decimal.Nil; num false d_1 Decimal.Nil].
Definition ex_row : row := ([num false d_500 Decimal.Nil], 0, [num true d_777 Decimal.Nil]).
Definition ex_data : list string := ["500 1970-01-01T00:00 -777"].
Lemma single_lit s : existsb (fun c => Ascii.eqb c "010"%char || Ascii.eqb c "013"%char || Ascii.eqb c """"%char) (chars s) = false -> single_line s.
Proof.
  intro H. assert (G : forall x, Ascii.eqb x "010"%char || Ascii.eqb x "013"%char || Ascii.eqb x """"%char = true -> ~ In x (chars s)).
  { intros x E I. assert (Q : existsb (fun c => Ascii.eqb c "010"%char || Ascii.eqb c "013"%char || Ascii.eqb c """"%char) (chars s) = true) by (apply existsb_exists; eauto). congruence. }
  repeat split; apply G; reflexivity.
Qed.
Lemma not_trimmed s k : String.eqb (strip s) k = false -> ~ trimmed s k.
Proof. intros H T. apply strip_iff in T. apply String.eqb_neq in H. contradiction. Qed.
Lemma blank_one : blank " " /\ blank "".
Proof. split; [constructor; [left; reflexivity|constructor]|constructor]. Qed.
Lemma ex_smet : smet_file ex_pre ex_header ex_data ["TA"] ["RH"] ex_mults [ex_row].
Proof.
  pose proof blank_one as [B1 B0].
  assert (UNIQ : forall k v, In (k, v) ex_header -> forall key, strip k = key ->
    forallb (fun p => String.eqb (fst p) k || negb (String.eqb (strip (fst p)) key)) ex_header = true ->
    forallb (fun p => negb (String.eqb (fst p) k) || String.eqb (snd p) v) ex_header = true -> only_entry ex_header key v).
  { intros k v I key E F1 F2. exists k. split; [exact I|]. split; [apply strip_iff, E|]. intros [k' v'] J T. apply strip_iff in T. cbn [fst] in T.
    rewrite forallb_forall in F1, F2. specialize (F1 _ J). specialize (F2 _ J). cbn [fst snd] in *.
    rewrite T, String.eqb_refl, orb_false_r in F1. rewrite F1 in F2. apply String.eqb_eq in F1, F2. congruence. }
  constructor.
  - constructor; [|constructor]. split; [apply single_lit; reflexivity|]. split; apply not_trimmed; reflexivity.
  - repeat (constructor; [split; [apply single_lit; reflexivity|split; [apply single_lit; reflexivity|apply not_in_lit; reflexivity]]|]). constructor.
  - exists " TA timestamp RH". split.
    + apply (UNIQ "fields "); [cbn; tauto|reflexivity..].
    + apply (spaced_more " " "TA" " " ["timestamp"; "RH"] "timestamp RH"); [assumption|assumption|discriminate|].
      apply (spaced_more "" "timestamp" " " ["RH"] "RH"); [assumption|assumption|discriminate|]. apply (spaced_last "" "RH" ""); assumption.
  - exists " 0.01 1 1". split.
    + apply (UNIQ "units_multiplier "); [cbn; tauto|reflexivity..].
    + apply (spaced_more " " "0.01" " " ["1"; "1"] "1 1"); [assumption|assumption|discriminate|].
      apply (spaced_more "" "1" " " ["1"] "1"); [assumption|assumption|discriminate|]. apply (spaced_last "" "1" ""); assumption.
  - repeat constructor; try discriminate; try (apply not_in_lit; reflexivity); intros c I; apply is_space_false; cbn in I; repeat (destruct I as [<-|I]; [reflexivity|]); contradiction.
  - repeat constructor; cbn; intuition discriminate.
  - discriminate.
  - constructor; [|constructor]. apply (spaced_more "" "500" " " ["1970-01-01T00:00"; "-777"] "1970-01-01T00:00 -777"); [assumption|assumption|discriminate|].
    apply (spaced_more "" "1970-01-01T00:00" " " ["-777"] "-777"); [assumption|assumption|discriminate|]. apply (spaced_last "" "-777" ""); assumption.
  - constructor; [|constructor]. vm_compute. split; discriminate.
  - constructor; [split; reflexivity|constructor].
Qed.
(** the multiplier 0.01 of TA is not used, -777 is not taken as missing, the offset is not added *)
Theorem C115_own_multiplier_refuted : exists h fr, read_smet legacy "h" (file_text ex_pre ex_header ex_data) = Some (Ok (h, fr)) /\
  assoc "nodata" h = Some "-777" /\ f_index fr = [0] /\ f_cols fr = [("temp", [Fin 500]); ("hum", [Fin (-777)])].
Proof.
  destruct (C115_read _ _ _ _ _ _ _ ex_smet eq_refl legacy "h" eq_refl) as (h & fr & R & _ & I & N & C).
  exists h, fr. split; [exact R|]. split.
  { rewrite (read_file _ _ _ _ _ _ _ ex_smet legacy "h") in R. cbn in R. injection R as <- _. reflexivity. }
  split; [exact I|]. destruct (f_cols fr) as [|[n1 c1] [|[n2 c2] [|]]]; try discriminate N. cbn in N. injection N as -> ->.
  destruct (C 0%nat _ _ eq_refl) as (mu & E1 & F1). destruct (C 1%nat _ _ eq_refl) as (mu' & E2 & F2). cbn in E1, E2. injection E1 as <-. injection E2 as <-.
  inversion F1 as [|? y1 ? ? (x1 & X1 & V1) G1]; subst. inversion G1; subst. inversion F2 as [|? y2 ? ? (x2 & X2 & V2) G2]; subst. inversion G2; subst.
  cbn in X1, X2. injection X1 as <-. injection X2 as <-.
  assert (A : numeral_value (num false d_500 Decimal.Nil) = 500%R) by (unfold numeral_value, digits; cbn; lra).
  assert (B : numeral_value (num true d_777 Decimal.Nil) = (-777)%R) by (unfold numeral_value, digits; cbn; lra).
  assert (O : numeral_value (num false d_1 Decimal.Nil) = 1%R) by (unfold numeral_value, digits; cbn; lra).
  unfold cell_read in V1, V2. rewrite A, O in V1. rewrite B, O in V2. destruct V1 as [[V _]|[_ ->]]; [lra|]. destruct V2 as [[V _]|[_ ->]]; [lra|].
  rewrite !Rmult_1_r. reflexivity.
Qed.
Print Assumptions C115_own_multiplier_refuted.
