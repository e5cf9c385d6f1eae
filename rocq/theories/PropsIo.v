(** KNMI and DWD readers: C64, C65, C87, C88. *)
From Coq Require Import String Ascii ZArith Reals List Bool Lia Lra Floats DecimalString Decimal.
From Verif Require Import Py Num Trans Cal CalProofs Series Frame JsonModel SpecJson JsonProofs SmetModel SpecSmet SmetProofs IoModel SpecIo.
Import ListNotations.
Open Scope string_scope.
Open Scope Z_scope.
Open Scope list_scope.

(** ** text to numbers *)
Fixpoint digits (u : uint) : list Z :=
  match u with
  | Nil => [] | D0 u => 0 :: digits u | D1 u => 1 :: digits u | D2 u => 2 :: digits u | D3 u => 3 :: digits u | D4 u => 4 :: digits u
  | D5 u => 5 :: digits u | D6 u => 6 :: digits u | D7 u => 7 :: digits u | D8 u => 8 :: digits u | D9 u => 9 :: digits u
  end.
Lemma acc_digits u : forall p, Zpos (Pos.of_uint_acc u p) = fold_left (fun v d => 10 * v + d) (digits u) (Zpos p).
Proof. induction u as [|u IH|u IH|u IH|u IH|u IH|u IH|u IH|u IH|u IH|u IH]; intro p; cbn [Pos.of_uint_acc digits fold_left]; [reflexivity|..]; rewrite IH; f_equal; lia. Qed.
Lemma of_digits u : Z.of_N (Pos.of_uint u) = fold_left (fun v d => 10 * v + d) (digits u) 0.
Proof. induction u as [|u IH|u IH|u IH|u IH|u IH|u IH|u IH|u IH|u IH|u IH]; cbn [Pos.of_uint digits fold_left]; [reflexivity|exact IH|..]; cbn [Z.of_N]; rewrite acc_digits; reflexivity. Qed.
Lemma char_digit c : 48 <= code c <= 57 -> forall u, exists u', uint_of_char c (Some u) = Some u' /\ digits u' = (code c - 48) :: digits u.
Proof.
  intros H u. destruct c as [[|] [|] [|] [|] [|] [|] [|] [|]]; cbv [code nat_of_ascii N_of_ascii N_of_digits] in H; cbn in H; try (exfalso; lia); eexists; (split; [reflexivity|]); reflexivity.
Qed.
Lemma string_digits s : Forall (fun c => 48 <= code c <= 57) (chars s) ->
  exists u, NilEmpty.uint_of_string s = Some u /\ digits u = map (fun c => code c - 48) (chars s).
Proof.
  induction s as [|c s IH]; intro H; [exists Nil; split; reflexivity|]. inversion H as [|? ? H1 H2]; subst. destruct (IH H2) as (u & E & D).
  destruct (char_digit c H1 u) as (u' & E' & D'). exists u'. cbn [NilEmpty.uint_of_string]. rewrite E. split; [exact E'|]. rewrite D', D. reflexivity.
Qed.
Lemma decimal_text s n : s <> "" -> decimal s n -> uint_text s = Some n.
Proof.
  intros NE [F ->]. destruct (string_digits s F) as (u & E & D). unfold uint_text, NilZero.uint_of_string. destruct s as [|c s]; [congruence|]. rewrite E. cbn [option_map]. f_equal.
  unfold N.of_uint. rewrite of_digits, D. clear. generalize 0. induction (chars (String c s)) as [|d l IH]; intro z; [reflexivity|]. cbn [map fold_left]. apply IH.
Qed.
Lemma decimal_nonneg s n : decimal s n -> 0 <= n.
Proof.
  intros [F ->]. assert (G : forall l z, Forall (fun c => 48 <= code c <= 57) l -> 0 <= z -> 0 <= fold_left (fun v c => 10 * v + (code c - 48)) l z).
  { induction l as [|c l IH]; intros z H Hz; [exact Hz|]. inversion H; subst. cbn [fold_left]. apply IH; [assumption|lia]. }
  apply G; [exact F|lia].
Qed.
Lemma sub_left a b : substring 0 (String.length a) (a ++ b)%string = a.
Proof. induction a as [|c a IH]; [destruct b; reflexivity|]. cbn. f_equal. exact IH. Qed.
Lemma sub_skip a b n : substring (String.length a) n (a ++ b)%string = substring 0 n b.
Proof. induction a as [|c a IH]; [reflexivity|]. cbn. exact IH. Qed.
Lemma sub_all c : substring 0 (String.length c) c = c.
Proof. induction c as [|x c IH]; [reflexivity|]. cbn. f_equal. exact IH. Qed.
Lemma ymd_slices s y m d : yyyymmdd s y m d ->
  int_of (substring 0 4 s) = Ok y /\ int_of (substring 4 2 s) = Ok m /\ int_of (substring 6 2 s) = Ok d.
Proof.
  intros (a & b & c & -> & La & Lb & Lc & Da & Db & Dc). unfold int_of.
  assert (Ea : substring 0 4 (a ++ b ++ c) = a) by (rewrite <- La; apply sub_left).
  assert (Eb : substring 4 2 (a ++ b ++ c) = b) by (rewrite <- La, sub_skip, <- Lb; apply sub_left).
  assert (Ec : substring 6 2 (a ++ b ++ c) = c).
  { rewrite <- (sapp_assoc a b c). replace 6%nat with (String.length (a ++ b)%string); [rewrite sub_skip, <- Lc; apply sub_all|].
    clear -La Lb. rewrite <- Lb in *. assert (G : forall u v, String.length (u ++ v)%string = (String.length u + String.length v)%nat) by (induction u as [|x u IH]; intro v; cbn; [reflexivity|f_equal; apply IH]).
    rewrite G, La, Lb. reflexivity. }
  rewrite Ea, Eb, Ec, (decimal_text a y), (decimal_text b m), (decimal_text c d); try assumption; [auto|..]; intros ->; discriminate.
Qed.

(** ** the time stamp *)
Lemma datetime_ok n y m d h : is_date n y m d -> 1 <= y <= 9999 -> 0 <= h <= 23 -> datetime y m d h = Ok (midnight n + h * us_hour).
Proof.
  intros (Ey & Em & Ed) Hy Hh. pose proof (day_valid n) as V. rewrite Ey, Em, Ed in V. destruct V as [V1 V2]. unfold datetime.
  replace ((1 <=? y) && (y <=? 9999) && (1 <=? m) && (m <=? 12) && (1 <=? d) && (d <=? days_in_month y m) && (0 <=? h) && (h <=? 23)) with true.
  - rewrite <- (civil_roundtrip n), Ey, Em, Ed. reflexivity.
  - symmetry. rewrite !andb_true_iff, !Z.leb_le. lia.
Qed.
Lemma datetime_bad y m d h : (forall n, ~ is_date n y m d) \/ ~ 1 <= y <= 9999 \/ ~ 0 <= h <= 23 -> datetime y m d h = Err ValueError.
Proof.
  intro B. unfold datetime. destruct (_ && (h <=? 23)) eqn:E; [|reflexivity]. exfalso. rewrite !andb_true_iff, !Z.leb_le in E.
  destruct B as [B|B]; [|lia]. apply (B (day_of_civil y m d)). apply civil_back. split; lia.
Qed.

Lemma Forall2_len {A B} (P : A -> B -> Prop) l l' : Forall2 P l l' -> List.length l = List.length l'.
Proof. induction 1; cbn; congruence. Qed.

Section Knmi.
  Context {T : Type} {N : Num T}.
  (** a record with a date text and an hour; [good] when the date exists and the hour is 1 to 24 *)
  Definition good (r : knmi T) (n : Z) : Prop :=
    exists y m d, yyyymmdd (k_date r) y m d /\ 1 <= y /\ is_date n y m d /\ 1 <= k_hour r <= 24.
  Lemma stamp_ok e r n : has_index_to_datetime e = true -> good r n -> knmi_stamp e r = Ok (midnight n + k_hour r * us_hour).
  Proof.
    intros E (y & m & d & Y & Hy & D & H). unfold knmi_stamp, guard. rewrite E. destruct (ymd_slices _ _ _ _ Y) as (-> & -> & ->). cbn [bind].
    assert (Y4 : y <= 9999).
    { destruct Y as (a & _ & _ & _ & La & _ & _ & [F ->] & _). do 4 (destruct a as [|? a]; [discriminate|]). destruct a; [|discriminate].
      repeat match goal with H : Forall _ _ |- _ => inversion H; clear H; subst end. cbn [chars list_ascii_of_string fold_left]. lia. }
    rewrite (datetime_ok n) by (auto || lia). cbn [bind]. f_equal. lia.
  Qed.

  (** C64: time stamps *)
  Theorem C64_stamps : forall e rs ns, has_index_to_datetime e = true -> Forall2 good rs ns ->
    exists fr, read_knmi_file e rs = Ok fr /\ map fst (f_cols fr) = ["temp"; "precip"; "glob"; "hum"; "wind"; "ssd"] /\ shaped fr /\
      Forall2 (fun rn t => t = snd rn * 86400000000 + k_hour (fst rn) * 3600000000) (combine rs ns) (f_index fr).
  Proof.
    intros e rs ns E G. unfold read_knmi_file.
    assert (M : mapM (knmi_stamp e) rs = Ok (map (fun rn => midnight (snd rn) + k_hour (fst rn) * us_hour) (combine rs ns))).
    { induction G as [|r n rs ns H G IH]; [reflexivity|]. cbn [mapM]. rewrite (stamp_ok e r n E H). cbn [bind]. rewrite IH. reflexivity. }
    rewrite M. cbn [bind]. eexists. split; [reflexivity|]. cbn [f_cols f_index]. split; [reflexivity|]. split.
    - assert (L : List.length (combine rs ns) = List.length rs) by (rewrite combine_length, <- (Forall2_len _ _ _ G); lia).
      unfold shaped. cbn [f_cols f_index]. repeat (apply Forall_cons; [cbn [snd]; rewrite !map_length, L; reflexivity|]). apply Forall_nil.
    - clear. induction (combine rs ns) as [|x l IH]; cbn [map]; [constructor|]. constructor; [reflexivity|exact IH].
  Qed.
  (** the hour is the end of the interval: 24 is midnight of the next day *)
  Theorem C64_hours : forall n h, 1 <= h <= 24 ->
    let t := n * 86400000000 + h * 3600000000 in
    (h < 24 -> date_of t = n /\ hour_of t = h) /\ (h = 24 -> date_of t = n + 1 /\ hour_of t = 0).
  Proof.
    intros n h H t. split; intro Q.
    - apply (date_hour n h). lia.
    - replace t with (midnight (n + 1) + 0 * us_hour) by (unfold t, midnight, us_day, us_hour; lia). apply date_hour. lia.
  Qed.
  (** dates that do not exist and hours outside 1 to 24 *)
  Theorem C64_rejected : forall e rs ns r y m d rest, has_index_to_datetime e = true -> Forall2 good rs ns -> yyyymmdd (k_date r) y m d ->
    (forall n, ~ is_date n y m d) \/ y = 0 \/ ~ 1 <= k_hour r <= 24 -> read_knmi_file e (rs ++ r :: rest) = Err ValueError.
  Proof.
    intros e rs ns r y m d rest E G Y B. unfold read_knmi_file.
    assert (M : mapM (knmi_stamp e) (rs ++ r :: rest) = Err ValueError).
    { induction G as [|r' n rs ns H G IH]; cbn [List.app mapM].
      - unfold knmi_stamp, guard. rewrite E. destruct (ymd_slices _ _ _ _ Y) as (-> & -> & ->). cbn [bind]. rewrite datetime_bad; [reflexivity|].
        destruct B as [B|[B|B]]; [left; exact B|right; left; lia|right; right; lia].
      - rewrite (stamp_ok e r' n E H). cbn [bind]. rewrite IH. reflexivity. }
    rewrite M. reflexivity.
  Qed.
  (** pandas without pd.datetime (deviation) *)
  Theorem C64_current_pandas : forall e rs, has_index_to_datetime e = false -> rs <> [] -> exists x, read_knmi_file e rs = Err x.
  Proof. intros e [|r rs] E H; [congruence|]. exists AttributeError. unfold read_knmi_file, mapM, knmi_stamp, guard. rewrite E. reflexivity. Qed.

  (** C64: several files are put one after the other, neither sorted nor freed of repetitions *)
  Theorem C64_dataset : forall e files frs, Forall2 (fun f fr => read_knmi_file e f = Ok fr) files frs ->
    exists fr, read_knmi_dataset e files = Ok fr /\ f_index fr = List.concat (map f_index frs) /\
      map fst (f_cols fr) = ["temp"; "precip"; "glob"; "hum"; "wind"; "ssd"] /\
      forall n, In n ["temp"; "precip"; "glob"; "hum"; "wind"; "ssd"] ->
        exists vs, Forall2 (fun fr v => assoc n (f_cols fr) = Some v) frs vs /\ assoc n (f_cols fr) = Some (List.concat vs).
  Proof.
    set (six := ["temp"; "precip"; "glob"; "hum"; "wind"; "ssd"]).
    intros e files frs F.
    assert (NM : forall f fr, read_knmi_file e f = Ok fr -> map fst (f_cols fr) = six).
    { intros f fr Q. unfold read_knmi_file in Q. destruct (mapM (knmi_stamp e) f); [|discriminate]. cbn [bind] in Q.
      apply (f_equal (fun o => match o with Ok g => map fst (f_cols g) | Err _ => [] end)) in Q. symmetry. exact Q. }
    assert (HAS : forall (cols : list (string * list T)) n, map fst cols = six -> In n six -> exists v, assoc n cols = Some v).
    { intros cols n Q I. rewrite <- Q in I. clear -I. induction cols as [|[k v] c IH]; [contradiction|]. cbn. destruct (String.eqb_spec k n); [eauto|]. destruct I; [contradiction|auto]. }
    set (get := fun n (fr : dframe T) => match assoc n (f_cols fr) with Some v => v | None => [] end).
    assert (C2 : forall a b n, map fst (f_cols a) = six -> In n six -> assoc n (f_cols (concat2 a b)) = Some (get n a ++ get n b)).
    { intros a b n Q I. destruct (HAS _ n Q I) as (v & V). unfold get at 1. rewrite V. cbn [concat2 f_cols]. clear Q. revert V. unfold get.
      induction (f_cols a) as [|[k w] c IH]; cbn; [discriminate|]. destruct (String.eqb_spec k n) as [->|]; [intro Q; injection Q as ->; reflexivity|exact IH]. }
    assert (G : forall files frs ts, Forall2 (fun f fr => read_knmi_file e f = Ok fr) files frs -> map fst (f_cols ts) = six ->
      exists fr, read_knmi_go e ts false files = Ok fr /\ f_index fr = f_index ts ++ List.concat (map f_index frs) /\ map fst (f_cols fr) = six /\
        forall n, In n six -> assoc n (f_cols fr) = Some (get n ts ++ List.concat (map (get n) frs))).
    { clear F files frs. intros files frs ts F. revert ts. induction F as [|f fr files frs H F IH]; intros ts Q.
      - exists ts. cbn. rewrite app_nil_r. repeat split; [exact Q|]. intros n I. rewrite app_nil_r. destruct (HAS _ n Q I) as (v & V). unfold get. rewrite V. reflexivity.
      - cbn [read_knmi_go]. rewrite H. cbn [bind]. assert (Q' : map fst (f_cols (concat2 ts fr)) = six) by (cbn [concat2 f_cols]; rewrite map_map; exact Q).
        destruct (IH _ Q') as (out & R & I1 & I2 & I3). exists out. split; [exact R|]. split; [rewrite I1; cbn; rewrite app_assoc; reflexivity|]. split; [exact I2|].
        intros n I. rewrite (I3 n I). unfold get at 1. rewrite (C2 ts fr n Q I). cbn [map List.concat]. rewrite app_assoc. reflexivity. }
    assert (SELF : forall n, In n six -> Forall2 (fun fr v => assoc n (f_cols fr) = Some v) frs (map (get n) frs)).
    { intros n I. clear G. induction F as [|f fr files frs H F IH]; cbn; constructor; [|exact IH]. destruct (HAS _ n (NM _ _ H) I) as (v & V). unfold get. rewrite V. reflexivity. }
    unfold read_knmi_dataset. destruct F as [|f fr files frs H F].
    - eexists. split; [reflexivity|]. split; [reflexivity|]. split; [reflexivity|]. intros n I. exists []. split; [constructor|].
      cbn [f_cols map knmi_columns List.concat]. cbn in I. intuition (subst n; reflexivity).
    - cbn [read_knmi_go]. rewrite H. cbn [bind]. destruct (G files frs fr F (NM _ _ H)) as (out & R & I1 & I2 & I3). exists out. split; [exact R|]. split; [exact I1|]. split; [exact I2|].
      intros n I. exists (map (get n) (fr :: frs)). split; [exact (SELF n I)|exact (I3 n I)].
  Qed.
End Knmi.

(** C64: the values, exact arithmetic *)
Theorem C64_values : forall e rs fr, read_knmi_file e rs = Ok fr ->
  Forall (fun r => reading (k_T r) /\ reading (k_RH r) /\ reading (k_Q r) /\ reading (k_U r) /\ reading (k_FH r) /\ reading (k_SQ r)) rs ->
  exists temp precip glob hum wind ssd,
    f_cols fr = [("temp", temp); ("precip", precip); ("glob", glob); ("hum", hum); ("wind", wind); ("ssd", ssd)] /\
    Forall2 (scaled (fun x => x / 10 + 273.15)%R) (map k_T rs) temp /\
    Forall2 (scaled (fun x => Rmax (x / 10) 0)%R) (map k_RH rs) precip /\
    Forall2 (scaled (fun x => x * 10000 / 3600)%R) (map k_Q rs) glob /\
    hum = map k_U rs /\
    Forall2 (scaled (fun x => x / 10)%R) (map k_FH rs) wind /\
    Forall2 (scaled (fun x => 6 * x)%R) (map k_SQ rs) ssd.
Proof.
  intros e rs fr H F. unfold read_knmi_file in H. destruct (mapM (knmi_stamp e) rs) as [ix|]; [|discriminate]. cbn [bind] in H.
  apply (f_equal (fun o => match o with Ok g => f_cols g | Err _ => [] end)) in H. cbv beta iota in H. cbn [f_cols] in H. symmetry in H.
  do 6 eexists. split; [exact H|]. clear H ix.
  assert (G : forall (pick : knmi xr -> xr) (g : xr -> xr) f, (forall r, In r rs -> reading (pick r)) -> (forall x, reading x -> scaled f x (g x)) ->
    Forall2 (scaled f) (map pick rs) (map (fun r => g (pick r)) rs)).
  { clear. intros pick g f A B. induction rs as [|r rs IH]; cbn; constructor; [apply B, A; left; reflexivity|]. apply IH. intros x I. apply A. right. exact I. }
  rewrite Forall_forall in F.
  assert (D10 : forall r, (Fin r / n_ofZ 10)%num = Fin (r / 10)) by (intro r; rewrite nofZ_xr; apply xdiv_Fin; lra).
  assert (K : @lit xr _ 27315 2 = Fin 273.15) by (rewrite lit_xr by discriminate; f_equal; cbn; lra).
  repeat split.
  - apply (G k_T (fun x => (x / n_ofZ 10 + lit 27315 2)%num)); [intros r I; apply (F r I)|]. intros [r| | |] Q; try contradiction; [|reflexivity]. cbn [scaled]. rewrite D10, K. apply xadd_Fin.
  - apply (G k_RH (fun x => no_negative (x / n_ofZ 10)%num)); [intros r I; apply (F r I)|]. intros [r| | |] Q; try contradiction; [|reflexivity]. cbn [scaled]. rewrite D10. unfold no_negative.
    rewrite n0_xr, xltb_Fin. destruct (Rltb_spec (r / 10) 0); f_equal; [rewrite Rmax_right; lra|rewrite Rmax_left; lra].
  - apply (G k_Q (fun x => (x * n_ofZ 10000 / n_ofZ 3600)%num)); [intros r I; apply (F r I)|]. intros [r| | |] Q; try contradiction; [|reflexivity]. cbn [scaled].
    rewrite !nofZ_xr, xmul_Fin. apply xdiv_Fin. lra.
  - apply (G k_FH (fun x => (x / n_ofZ 10)%num)); [intros r I; apply (F r I)|]. intros [r| | |] Q; try contradiction; [|reflexivity]. cbn [scaled]. apply D10.
  - apply (G k_SQ (fun x => (x * n_ofZ 6)%num)); [intros r I; apply (F r I)|]. intros [r| | |] Q; try contradiction; [|reflexivity]. cbn [scaled]. rewrite nofZ_xr, xmul_Fin. f_equal. ring.
Qed.
(** no double of the precipitation column is negative *)
Theorem C64_precip_f64 : forall e (rs : list (knmi float)) fr v x, read_knmi_file e rs = Ok fr -> assoc "precip" (f_cols fr) = Some v -> In x v -> PrimFloat.ltb x 0%float = false.
Proof.
  intros e rs fr v x H A I. unfold read_knmi_file in H. destruct (mapM (knmi_stamp e) rs) as [ix|]; [|discriminate]. cbn [bind] in H.
  apply (f_equal (fun o => match o with Ok g => assoc "precip" (f_cols g) | Err _ => None end)) in H. cbv beta iota in H. rewrite A in H.
  apply (f_equal (fun o => match o with Some g => g | None => [] end)) in H. cbv beta iota in H. rewrite <- H in I. cbn [assoc f_cols String.eqb Ascii.eqb Bool.eqb] in I.
  apply in_map_iff in I as (r & <- & _). unfold no_negative. change (@n0 float _) with 0%float. change (@n_ltb float _) with PrimFloat.ltb.
  set (x := (k_RH r / n_ofZ 10)%num). destruct (PrimFloat.ltb x 0%float) eqn:E; [reflexivity|exact E].
Qed.
(** the code -1 (less than 0.05 h of sunshine) becomes -6 minutes (deviation) *)
Theorem C64_sunshine : forall e rs fr v i r, read_knmi_file e rs = Ok fr -> assoc "ssd" (f_cols fr) = Some v -> nth_error rs i = Some r -> k_SQ r = Fin (-1) ->
  nth_error v i = Some (Fin (-6)).
Proof.
  intros e rs fr v i r H A I Q. unfold read_knmi_file in H. destruct (mapM (knmi_stamp e) rs) as [ix|]; [|discriminate]. cbn [bind] in H.
  apply (f_equal (fun o => match o with Ok g => assoc "ssd" (f_cols g) | Err _ => None end)) in H. cbv beta iota in H. rewrite A in H.
  apply (f_equal (fun o => match o with Some g => g | None => [] end)) in H. cbv beta iota in H. rewrite <- H. cbn [assoc f_cols String.eqb Ascii.eqb Bool.eqb].
  rewrite nth_error_map, I. cbn [option_map]. rewrite Q, nofZ_xr, xmul_Fin. do 2 f_equal. lra.
Qed.

(** ** DWD *)
Section Dwd.
  Context {T : Type} {N : Num T}.
  Variable parse : string -> list string -> res (dframe T).

  (** C65: False drops the last line just as True does (deviation) *)
  Theorem C65_false_is_true : forall rows mode lines, read_single_dwd parse rows mode (Some false) lines = read_single_dwd parse rows mode (Some true) lines.
  Proof. reflexivity. Qed.
  Theorem C65_last_line_ignored : forall rows mode b lines l,
    read_single_dwd parse rows mode (Some b) (lines ++ [l]) = read_single_dwd parse rows mode None lines.
  Proof. intros. unfold read_single_dwd, kept_lines. rewrite removelast_last. reflexivity. Qed.
  Theorem C65_none_keeps : forall rows mode lines h fr, read_single_dwd parse rows mode None lines = Ok (h, fr) ->
    exists raw, parse mode lines = Ok raw /\ f_index fr = f_index raw.
  Proof.
    intros rows mode lines h fr H. unfold read_single_dwd in H. destruct (dwd_header rows); [|discriminate]. cbn [bind] in H.
    destruct (_ || _); [|discriminate]. cbn [kept_lines] in H. destruct (parse mode lines) as [raw|]; [|discriminate]. cbn [bind] in H. exists raw. split; [reflexivity|].
    apply (f_equal (fun o => match o with Ok p => f_index (snd p) | Err _ => [] end)) in H. symmetry. exact H.
  Qed.
  Theorem C65_several_files : forall rows mode b files lasts, List.length files = List.length lasts ->
    read_dwd_list parse rows mode (Some b) (map (fun p => fst p ++ [snd p]) (combine files lasts)) = read_dwd_list parse rows mode None files.
  Proof.
    intros rows mode b files. unfold read_dwd_list. generalize (@None (list (string * option string) * dframe T)) as acc.
    induction files as [|f files IH]; intros acc [|l lasts] L; try discriminate; [reflexivity|]. cbn [combine map read_dwd_go fst snd].
    rewrite C65_last_line_ignored. destruct (read_single_dwd parse rows mode None f) as [cur|]; [|reflexivity]. cbn [bind].
    destruct acc as [[h d]|]; cbn [bind]; [destruct (outer_join d (snd cur)); cbn [bind]; [|reflexivity]|]; apply IH; injection L as L; exact L.
  Qed.

  (** ** C87: columns and header *)
  Lemma kept_iff n new : kept_as n new <-> rename_name dwd_names (strip n) = new /\ existsb (String.eqb new) (map snd dwd_names) = true.
  Proof.
    assert (K : kept_as n new <-> kept_as (strip n) new /\ trimmed (strip n) (strip n)).
    { assert (TT : trimmed (strip n) (strip n)).
      { destruct (strip_trimmed n) as (a & b & E & _ & _ & H1 & H2). apply trimmed_self; assumption. }
      split.
      - intros (m & Tm & H). apply strip_iff in Tm as <-. split; [|exact TT]. exists (strip n). split; [exact TT|exact H].
      - intros [(m & Tm & H) _]. rewrite <- (trimmed_fun _ _ _ TT Tm) in H. exists (strip n). split; [apply strip_trimmed|exact H]. }
    rewrite K. set (m := strip n). 
    assert (TT : trimmed m m) by (destruct (strip_trimmed n) as (a & b & E & _ & _ & H1 & H2); apply trimmed_self; assumption).
    assert (KM : kept_as m new <-> 
      ((m, new) = ("LUFTTEMPERATUR", "tmean") \/ (m, new) = ("LUFTTEMPERATUR_MINIMUM", "tmin") \/ (m, new) = ("LUFTTEMPERATUR_MAXIMUM", "tmax") \/
       (m, new) = ("NIEDERSCHLAGSHOEHE", "precip") \/ (m, new) = ("GLOBAL_KW_J", "glob") \/ (m, new) = ("REL_FEUCHTE", "hum") \/
       (m, new) = ("WINDGESCHWINDIGKEIT", "wind") \/ (m, new) = ("SONNENSCHEINDAUER", "sun_h") \/
       (m = new /\ In m ["tmean"; "tmin"; "tmax"; "precip"; "glob"; "hum"; "wind"; "sun_h"]))).
    { split; [intros (m' & Tm & H); rewrite <- (trimmed_fun _ _ _ TT Tm) in H; exact H|intro H; exists m; auto]. }
    rewrite KM. clearbody m. clear K KM. rewrite existsb_exists. unfold rename_name, dwd_names. cbn [assoc map snd].
    split.
    - intros [H TM]. split.
      + repeat (destruct H as [H|H]; [injection H as -> ->; reflexivity|]). destruct H as [-> H].
        cbn [In] in H. repeat (destruct H as [<-|H]; [reflexivity|]). contradiction.
      + exists new. split; [|apply String.eqb_refl]. cbn [In].
        repeat (destruct H as [H|H]; [injection H as -> ->; tauto|]). destruct H as [-> H]. cbn [In] in H. tauto.
    - intros [H (x & I & Q)]. split; [|exact TT]. apply String.eqb_eq in Q. subst x.
      repeat match type of H with (match (if String.eqb ?a m then _ else _) with _ => _ end) = _ => destruct (String.eqb_spec a m) as [<-|?]; [subst new; tauto|] end.
      cbn [In] in I. do 8 right. subst new. split; [reflexivity|]. cbn [In]. tauto.
  Qed.
  Definition celsius (x : T) : T := (x + lit 27315 2)%num.
  Lemma dwd_columns_ok cols : dwd_cols celsius cols (dwd_columns cols).
  Proof.
    unfold dwd_columns. cbv zeta. induction cols as [|[n v] r IH]; [constructor|]. cbn [map rename filter fst snd].
    destruct (existsb (String.eqb (rename_name dwd_names (strip n))) (map snd dwd_names)) eqn:E.
    - assert (K : kept_as n (rename_name dwd_names (strip n))) by (apply kept_iff; auto).
      cbn [kelvin map fst snd]. set (new := rename_name dwd_names (strip n)) in *.
      assert (C : In new ["tmean"; "tmin"; "tmax"; "precip"; "glob"; "hum"; "wind"; "sun_h"]).
      { clear -E. apply existsb_exists in E as (x & I & Q). apply String.eqb_eq in Q. subst x. cbn in I. cbn. tauto. }
      clearbody new. cbn [In] in C. destruct C as [<-|[<-|[<-|C]]]; [apply dc_temp; [exact K|cbn; tauto|exact IH]..|].
      assert (NT : ~ In new ["tmean"; "tmin"; "tmax"]) by (cbn; clear -C; intuition (subst; congruence)).
      repeat (destruct C as [<-|C]; [apply dc_keep; [exact K|exact NT|exact IH]|]). contradiction.
    - apply dc_drop; [|exact IH]. intros new K. apply kept_iff in K as [<- K]. congruence.
  Qed.
  (** columns by name, temperatures in Kelvin, all else as in the file *)
  Theorem C87_columns : forall rows mode skip lines h fr, read_single_dwd parse rows mode skip lines = Ok (h, fr) ->
    exists raw, parse mode (match skip with None => lines | Some _ => removelast lines end) = Ok raw /\ f_index fr = f_index raw /\ dwd_cols celsius (f_cols raw) (f_cols fr).
  Proof.
    intros rows mode skip lines h fr H. unfold read_single_dwd in H. destruct (dwd_header rows); [|discriminate]. cbn [bind] in H.
    destruct (_ || _); [|discriminate]. destruct (parse mode (kept_lines skip lines)) as [raw|] eqn:E; [|discriminate]. cbn [bind] in H. exists raw. split; [exact E|].
    split; [apply (f_equal (fun o => match o with Ok p => f_index (snd p) | Err _ => [] end)) in H; symmetry; exact H|].
    apply (f_equal (fun o => match o with Ok p => f_cols (snd p) | Err _ => [] end)) in H. cbv beta iota in H. cbn [snd f_cols] in H. rewrite <- H. apply dwd_columns_ok.
  Qed.
  (** in particular hourly temperatures come back as 'tmean', never as 'temp' (deviation) *)
  Theorem C87_no_temp : forall rows mode skip lines h fr, read_single_dwd parse rows mode skip lines = Ok (h, fr) -> ~ In "temp" (map fst (f_cols fr)).
  Proof.
    intros rows mode skip lines h fr H. destruct (C87_columns _ _ _ _ _ _ H) as (raw & _ & _ & D). clear H.
    assert (K : forall n, ~ kept_as n "temp") by (intros n K; apply kept_iff in K as [_ K]; discriminate).
    induction D as [|n v r r' _ D IH|n new v r r' Q I D IH|n new v r r' Q I D IH]; cbn [map fst In]; [tauto|exact IH|..]; intros [->|J]; try (exact (K _ Q)); exact (IH J).
  Qed.
  (** other modes fail, after the metadata have been read *)
  Theorem C87_mode : forall rows mode skip lines h, mode <> "d" -> mode <> "h" -> dwd_header rows = Ok h -> read_single_dwd parse rows mode skip lines = Err UnboundLocalError.
  Proof.
    intros rows mode skip lines h D H E. unfold read_single_dwd. rewrite E. cbn [bind]. destruct (String.eqb_spec mode "d"); [contradiction|]. destruct (String.eqb_spec mode "h"); [contradiction|]. reflexivity.
  Qed.
  (** the header is taken from the last row of the metadata that is not empty *)
  Definition blank (r : meta_row) : Prop := mr_id r = None /\ mr_name r = None /\ mr_lat r = None /\ mr_lon r = None /\ mr_rest r = false.
  Lemma filled_blank r : filled_row r = false <-> blank r.
  Proof.
    unfold filled_row, blank. rewrite !orb_false_iff.
    assert (F : forall A (o : option A), filled_cell o = false <-> o = None) by (intros A [a|]; cbn; split; congruence). rewrite !F. tauto.
  Qed.
  Lemma find_rev_app {A} (f : A -> bool) pre x post : f x = true -> Forall (fun y => f y = false) post -> find f (List.rev (pre ++ x :: post)) = Some x.
  Proof.
    intros Fx FP. rewrite rev_app_distr. cbn [List.rev]. rewrite <- app_assoc.
    assert (G : forall l m : list A, Forall (fun y => f y = false) l -> find f (l ++ m) = find f m) by (induction 1 as [|y l Hy Hl IH]; cbn; [reflexivity|rewrite Hy; exact IH]).
    rewrite G by (apply Forall_rev; exact FP). cbn. rewrite Fx. reflexivity.
  Qed.
  Theorem C87_header : forall pre r post mode skip lines h fr, ~ blank r -> Forall blank post ->
    read_single_dwd parse (pre ++ r :: post) mode skip lines = Ok (h, fr) ->
    h = [("Stations_id", mr_id r); ("Stationsname", mr_name r); ("Breite", mr_lat r); ("Laenge", mr_lon r)].
  Proof.
    intros pre r post mode skip lines h fr NB FB H. unfold read_single_dwd, dwd_header in H. rewrite find_rev_app in H.
    - cbn [bind] in H. destruct (_ || _); [|discriminate]. destruct (parse _ _); [|discriminate]. cbn [bind] in H.
      apply (f_equal (fun o => match o with Ok p => fst p | Err _ => [] end)) in H. symmetry. exact H.
    - destruct (filled_row r) eqn:E; [reflexivity|]. apply filled_blank in E. contradiction.
    - eapply Forall_impl; [|exact FB]. intros a Ba. apply filled_blank. exact Ba.
  Qed.
  Theorem C87_no_header : forall rows mode skip lines, Forall blank rows -> read_single_dwd parse rows mode skip lines = Err KeyError.
  Proof.
    intros rows mode skip lines F. unfold read_single_dwd, dwd_header.
    replace (find filled_row (List.rev rows)) with (@None meta_row); [reflexivity|]. symmetry.
    assert (G : forall l, Forall blank l -> find filled_row l = None) by (induction 1 as [|y l Hy Hl IH]; cbn; [reflexivity|apply filled_blank in Hy; rewrite Hy; exact IH]).
    apply G, Forall_rev, F.
  Qed.

  (** ** C88: several files *)
  (** every column of every file is found again, extended by missing values to the times of all files *)
  Definition joined (frs : list (dframe T)) (fr : dframe T) : Prop :=
    (forall t, In t (f_index fr) <-> exists f, In f frs /\ In t (f_index f)) /\ NoDup (f_index fr) /\ shaped fr /\
    map fst (f_cols fr) = List.concat (map (fun f => map fst (f_cols f)) frs) /\
    (forall f n v, In f frs -> In (n, v) (f_cols f) -> exists v', In (n, v') (f_cols fr) /\
       forall t, In t (f_index fr) -> (forall x, at_time f v t x -> at_time fr v' t x) /\ (~ In t (f_index f) -> at_time fr v' t n_nan)).

  Lemma zlist_eqb_eq a : forall b, zlist_eqb a b = true <-> a = b.
  Proof. induction a as [|x a IH]; intros [|y b]; cbn; try (split; congruence). rewrite andb_true_iff, Z.eqb_eq, IH. split; [intros [-> ->]; reflexivity|intro Q; injection Q; auto]. Qed.
  Lemma union_In a b t : In t (union a b) <-> In t a \/ In t b.
  Proof.
    revert a. induction b as [|u b IH]; intro a; cbn [union In]; [tauto|]. destruct (mem u a) eqn:E; rewrite IH.
    - apply mem_In in E. intuition (subst; auto).
    - rewrite in_app_iff. cbn. tauto.
  Qed.
  Lemma union_NoDup a b : NoDup a -> NoDup (union a b).
  Proof.
    revert a. induction b as [|u b IH]; intros a H; cbn [union]; [exact H|]. destruct (mem u a) eqn:E; [apply IH, H|]. apply IH.
    apply NoDup_rev in H. rewrite <- (rev_involutive (a ++ [u])). apply NoDup_rev. rewrite rev_app_distr. cbn. constructor; [|exact H].
    rewrite <- in_rev. intro I. apply mem_In in I. congruence.
  Qed.
  Lemma zsort_In l t : In t (zsort l) <-> In t l.
  Proof.
    unfold zsort. rewrite in_map_iff. split.
    - intros ([u []] & <- & I). apply (proj1 (sort_In _ _)) in I. apply in_map_iff in I as (w & Q & I). injection Q as <-. exact I.
    - intro I. exists (t, tt). split; [reflexivity|]. apply (proj2 (sort_In _ _)). apply in_map_iff. eauto.
  Qed.
  Lemma ascending_NoDup l : ascending l -> NoDup l.
  Proof.
    induction l as [|a l IH]; intro H; [constructor|]. apply ascending_cons in H as [H1 H2]. constructor; [|auto]. intro I. specialize (H1 a I). lia.
  Qed.
  Lemma zsort_ascending l : NoDup l -> ascending (zsort l).
  Proof. intro H. unfold zsort. apply sort_ascending. rewrite map_map, map_id. exact H. Qed.
  Lemma on_index_at index old v t : NoDup old -> List.length v = List.length old -> In t index ->
    (forall x, In (t, x) (combine old v) -> In (t, x) (combine index (on_index index old v))) /\ (~ In t old -> In (t, n_nan) (combine index (on_index index old v))).
  Proof.
    intros D L I. assert (P : forall y, match lookup t (combine old v) with Some x => x | None => n_nan end = y -> In (t, y) (combine index (on_index index old v))).
    { intros y Q. unfold on_index. clear D L. induction index as [|u index IH]; [contradiction|]. cbn. destruct I as [->|I]; [left; rewrite Q; reflexivity|right; auto]. }
    assert (F : map fst (combine old v) = old).
    { clear -L. revert v L. induction old as [|o old IH]; intros [|a v] L; try discriminate; [reflexivity|]. cbn. f_equal. apply IH. injection L as L. exact L. }
    split.
    - intros x J. apply P. assert (Q : lookup t (combine old v) = Some x); [|rewrite Q; reflexivity]. rewrite <- F in D. revert D J. generalize (combine old v) as c. clear.
      induction c as [|[u w] c IH]; intros D J; [contradiction|]. inversion D as [|? ? N1 N2]; subst. cbn. destruct (Z.eqb_spec u t) as [->|NE].
      + destruct J as [J|J]; [injection J as ->; reflexivity|]. exfalso. apply N1. cbn. apply (in_map fst) in J. exact J.
      + destruct J as [J|J]; [congruence|auto].
    - intro NI. apply P. assert (Q : lookup t (combine old v) = None) by (apply lookup_None_iff; rewrite F; exact NI). rewrite Q. reflexivity.
  Qed.
  Lemma disjoint_test (a b : list (string * list T)) :
    existsb (fun c => existsb (String.eqb (fst c)) (map fst b)) a = true <-> exists n, In n (map fst a) /\ In n (map fst b).
  Proof.
    rewrite existsb_exists. split.
    - intros (c & I & Q). apply existsb_exists in Q as (n & J & Q). apply String.eqb_eq in Q. subst n. exists (fst c). split; [apply in_map, I|exact J].
    - intros (n & I & J). apply in_map_iff in I as (c & <- & I). exists c. split; [exact I|]. apply existsb_exists. exists (fst c). split; [exact J|apply String.eqb_refl].
  Qed.
  Lemma join_step frs a b : joined frs a -> NoDup (f_index b) -> shaped b -> (forall n, In n (map fst (f_cols a)) -> ~ In n (map fst (f_cols b))) ->
    exists c, outer_join a b = Ok c /\ joined (frs ++ [b]) c /\ (ascending (f_index a) -> ascending (f_index b) -> ascending (f_index c)).
  Proof.
    intros (J1 & J2 & J3 & J4 & J5) D Sb DJ. unfold outer_join.
    destruct (existsb _ (f_cols a)) eqn:E; [exfalso; apply disjoint_test in E as (n & I & I'); exact (DJ n I I')|]. clear E.
    assert (NAMES : List.concat (map (fun f => map fst (f_cols f)) (frs ++ [b])) = map fst (f_cols a) ++ map fst (f_cols b)).
    { rewrite map_app, concat_app, <- J4. cbn. rewrite app_nil_r. reflexivity. }
    destruct (zlist_eqb (f_index a) (f_index b)) eqn:Q.
    - apply zlist_eqb_eq in Q. eexists. split; [reflexivity|]. split; [|cbn [f_index]; auto]. unfold joined. cbn [f_index f_cols]. repeat split.
      + intro I. apply J1 in I as (f & F & I). exists f. rewrite in_app_iff. auto.
      + intros (f & F & I). apply in_app_iff in F as [F|[<-|[]]]; [apply J1; eauto|rewrite Q; exact I].
      + exact J2.
      + unfold shaped. cbn [f_index f_cols]. apply Forall_app. split; [exact J3|]. rewrite Q. exact Sb.
      + rewrite map_app, NAMES. reflexivity.
      + intros f n v F I. apply in_app_iff in F as [F|[<-|[]]].
        * destruct (J5 f n v F I) as (v' & I' & V). exists v'. split; [apply in_app_iff; auto|]. intros t It. apply (V t It).
        * exists v. split; [apply in_app_iff; auto|]. intros t It. unfold at_time. cbn [f_index]. split; [intros x; rewrite Q; auto|rewrite <- Q; contradiction].
    - set (index := zsort (union (f_index a) (f_index b))).
      assert (II : forall t, In t index <-> In t (f_index a) \/ In t (f_index b)) by (intro t; unfold index; rewrite zsort_In, union_In; reflexivity).
      assert (AI : ascending index) by (apply zsort_ascending, union_NoDup, J2).
      eexists. split; [reflexivity|]. split; [|cbn [f_index]; auto]. unfold joined. cbn [f_index f_cols]. repeat split.
      + intro I. apply II in I as [I|I]; [apply J1 in I as (f & F & I); exists f; rewrite in_app_iff; auto|exists b; rewrite in_app_iff; cbn; auto].
      + intros (f & F & I). apply II. apply in_app_iff in F as [F|[<-|[]]]; [left; apply J1; eauto|right; exact I].
      + apply ascending_NoDup, AI.
      + unfold shaped. cbn [f_index f_cols]. apply Forall_app. split; apply Forall_forall; intros c I; apply in_map_iff in I as (c' & <- & _); cbn [snd]; apply map_length.
      + rewrite map_app, NAMES, !map_map. cbn [fst]. reflexivity.
      + intros f n v F I. apply in_app_iff in F as [F|[<-|[]]].
        * destruct (J5 f n v F I) as (v' & I' & V). exists (on_index index (f_index a) v'). split; [apply in_app_iff; left; apply in_map_iff; exists (n, v'); auto|].
          unfold shaped in J3. rewrite Forall_forall in J3. specialize (J3 _ I'). cbn [snd] in J3.
          intros t It. unfold at_time. cbn [f_index]. destruct (on_index_at index (f_index a) v' t J2 J3 It) as [O1 O2]. split.
          -- intros x X. assert (Ia : In t (f_index a)). { apply J1. exists f. split; [exact F|]. apply in_combine_l in X. exact X. } apply O1. apply (V t Ia). exact X.
          -- intro NI. destruct (in_dec Z.eq_dec t (f_index a)) as [Ia|Na]; [apply O1; apply (V t Ia); exact NI|apply O2, Na].
        * exists (on_index index (f_index b) v). split; [apply in_app_iff; right; apply in_map_iff; exists (n, v); auto|].
          unfold shaped in Sb. rewrite Forall_forall in Sb. specialize (Sb _ I). cbn [snd] in Sb.
          intros t It. unfold at_time. cbn [f_index]. destruct (on_index_at index (f_index b) v t D Sb It) as [O1 O2]. split; [exact O1|exact O2].
  Qed.
  Theorem C88_joined : forall rows mode skip files h frs, files <> [] -> dwd_header rows = Ok h ->
    Forall2 (fun f fr => read_single_dwd parse rows mode skip f = Ok (h, fr)) files frs ->
    Forall (fun fr => NoDup (f_index fr) /\ shaped fr) frs -> NoDup (List.concat (map (fun f => map fst (f_cols f)) frs)) ->
    exists fr, read_dwd_list parse rows mode skip files = Ok (h, fr) /\ joined frs fr /\
      (Forall (fun f => ascending (f_index f)) frs -> ascending (f_index fr)).
  Proof.
    intros rows mode skip files h frs NE HH F G ND. destruct F as [|f fr files frs H F]; [congruence|]. unfold read_dwd_list. cbn [read_dwd_go]. rewrite H. cbn [bind].
    assert (B : joined [fr] fr).
    { inversion G as [|? ? [G1 G2] _]; subst. unfold joined. repeat split.
      - intro I. exists fr. cbn. auto.
      - intros (x & [<-|[]] & I). exact I.
      - exact G1.
      - exact G2.
      - cbn. rewrite app_nil_r. reflexivity.
      - intros x n v [<-|[]] I. exists v. split; [exact I|]. intros t It. split; [auto|contradiction]. }
    assert (ST : forall files frs done a, Forall2 (fun f fr => read_single_dwd parse rows mode skip f = Ok (h, fr)) files frs ->
      Forall (fun fr => NoDup (f_index fr) /\ shaped fr) frs -> joined done a -> NoDup (List.concat (map (fun f => map fst (f_cols f)) (done ++ frs))) ->
      exists c, read_dwd_go parse rows mode skip (Some (h, a)) files = Ok (h, c) /\ joined (done ++ frs) c /\
        (ascending (f_index a) -> Forall (fun f => ascending (f_index f)) frs -> ascending (f_index c))).
    { clear. intros files frs done a F. revert done a. induction F as [|f fr files frs H F IH]; intros done a G J ND.
      - exists a. cbn [read_dwd_go]. rewrite app_nil_r. auto.
      - inversion G as [|? ? [G1 G2] G3]; subst. cbn [read_dwd_go]. rewrite H. cbn [bind fst snd].
        destruct (join_step done a fr J G1 G2) as (c & E & Jc & As).
        { intros n I. destruct J as (_ & _ & _ & J4 & _). rewrite J4 in I. rewrite map_app, concat_app in ND. cbn [map List.concat] in ND. clear -ND I.
          revert ND I. generalize (List.concat (map (fun f => map fst (f_cols f)) done)) as l. induction l as [|x l IH]; intros ND I; [contradiction|].
          inversion ND as [|? ? N1 N2]; subst. destruct I as [->|I]; [|auto]. intro I'. apply N1. apply in_app_iff. right. apply in_app_iff. left. exact I'. }
        rewrite E. cbn [bind]. destruct (IH (done ++ [fr]) c G3 Jc) as (out & R & Jo & Ao); [rewrite <- app_assoc; exact ND|].
        exists out. split; [exact R|]. rewrite <- app_assoc in Jo. split; [exact Jo|]. intros A1 A2. inversion A2; subst. auto. }
    inversion G as [|? ? _ G']; subst. destruct (ST files frs [fr] fr F G' B ND) as (c & R & Jc & Ac). exists c. split; [exact R|]. split; [exact Jc|].
    intro A. inversion A; subst. auto.
  Qed.
  (** two files with a column in common cannot be joined; no file at all is an error *)
  Theorem C88_overlap : forall rows mode skip f1 f2 rest h fr1 fr2 n, read_single_dwd parse rows mode skip f1 = Ok (h, fr1) ->
    read_single_dwd parse rows mode skip f2 = Ok (h, fr2) -> In n (map fst (f_cols fr1)) -> In n (map fst (f_cols fr2)) ->
    read_dwd_list parse rows mode skip (f1 :: f2 :: rest) = Err ValueError.
  Proof.
    intros rows mode skip f1 f2 rest h fr1 fr2 n H1 H2 I1 I2. unfold read_dwd_list. cbn [read_dwd_go]. rewrite H1. cbn [bind]. rewrite H2. cbn [bind snd]. unfold outer_join.
    assert (E : existsb (fun c => existsb (String.eqb (fst c)) (map fst (f_cols fr2))) (f_cols fr1) = true) by (apply disjoint_test; eauto). rewrite E. reflexivity.
  Qed.
  Theorem C88_no_files : forall rows mode skip, read_dwd_list parse rows mode skip [] = Err UnboundLocalError.
  Proof. reflexivity. Qed.
End Dwd.

(** ** Cases that meet the hypotheses *)
Definition knmi_row (date : string) (h : Z) : knmi xr :=
  {| k_date := date; k_hour := h; k_T := Fin 105; k_RH := Fin (-1); k_Q := NaN; k_U := Fin 81; k_FH := Fin 30; k_SQ := Fin (-1) |}.
Lemma ymd_example : yyyymmdd "20160228" 2016 2 28.
Proof.
  exists "2016", "02", "28". repeat split; repeat (apply Forall_cons; [cbv; split; discriminate|]); apply Forall_nil.
Qed.
Example C64_met : good (knmi_row "20160228" 24) 16859 /\
  exists fr, read_knmi_file legacy [knmi_row "20160228" 24] = Ok fr /\ map date_of (f_index fr) = [16860] /\ map dom_of (f_index fr) = [29].
Proof.
  assert (G : good (knmi_row "20160228" 24) 16859).
  { exists 2016, 2, 28. split; [exact ymd_example|]. split; [lia|]. split; [repeat split|cbn; lia]. }
  split; [exact G|]. destruct (C64_stamps legacy [knmi_row "20160228" 24] [16859] eq_refl (Forall2_cons _ _ G (Forall2_nil _))) as (fr & R & _ & _ & I).
  exists fr. split; [exact R|]. inversion I as [|? t ? l E I']; subst. inversion I'; subst. split; reflexivity.
Qed.
Example C64_rejected_met : yyyymmdd "20150229" 2015 2 29 /\ forall n, ~ is_date n 2015 2 29.
Proof.
  split.
  - exists "2015", "02", "29". repeat split; repeat (apply Forall_cons; [cbv; split; discriminate|]); apply Forall_nil.
  - intros n (Y & M & D). pose proof (day_valid n) as V. rewrite Y, M, D in V. destruct V as [_ V]. cbn in V. lia.
Qed.
(** files are not merged by time: the later one first, and the same hour twice *)
Example C64_order_refuted : exists files fr, read_knmi_dataset legacy files = Ok fr /\ ~ ascending (f_index fr) /\ ~ NoDup (f_index fr).
Proof.
  exists [[knmi_row "20160228" 3; knmi_row "20160228" 2]; [knmi_row "20160228" 2]]. eexists. split; [reflexivity|]. split.
  - intros [H _]. revert H. cbv. discriminate.
  - intro H. inversion H as [|? ? _ H1]; subst. inversion H1 as [|? ? H2 _]; subst. apply H2. left. reflexivity.
Qed.

(** a reader that takes one value per line after the header line *)
Definition toy (cols : string) (mode : string) (ls : list string) : res (dframe xr) :=
  Ok {| f_index := map Z.of_nat (seq 0 (List.length (tl ls))); f_cols := [((" " ++ cols)%string, map (fun _ => Fin 1) (tl ls)); ("STATIONS_ID", map (fun _ => Fin 44) (tl ls))] |}.
Definition toy_rows : list meta_row :=
  [{| mr_id := Some "44"; mr_name := Some "Grossenkneten"; mr_lat := Some "52.93"; mr_lon := Some "8.23"; mr_rest := true |};
   {| mr_id := None; mr_name := None; mr_lat := None; mr_lon := None; mr_rest := false |}].
Example C65_met : exists h fr fr', read_single_dwd (toy "LUFTTEMPERATUR") toy_rows "h" (Some false) ["header"; "1"; "2"] = Ok (h, fr) /\
  read_single_dwd (toy "LUFTTEMPERATUR") toy_rows "h" None ["header"; "1"; "2"] = Ok (h, fr') /\ f_index fr = [0] /\ f_index fr' = [0; 1].
Proof. eexists. eexists. eexists. split; [reflexivity|]. split; [reflexivity|]. split; reflexivity. Qed.
Example C87_met : exists h fr, read_single_dwd (toy "LUFTTEMPERATUR") toy_rows "h" None ["header"; "1"] = Ok (h, fr) /\
  f_cols fr = [("tmean", [Fin 274.15])] /\ assoc "Stationsname" h = Some (Some "Grossenkneten").
Proof.
  eexists. eexists. split; [reflexivity|]. split; [|reflexivity]. cbn [f_cols].
  assert (K : @lit xr _ 27315 2 = Fin 273.15) by (rewrite lit_xr by discriminate; f_equal; cbn; lra).
  change (dwd_columns _) with [("tmean", [celsius (Fin 1)])]. unfold celsius. rewrite K, xadd_Fin. do 4 f_equal. lra.
Qed.
(** two files with different times and columns *)
Definition toy2 (mode : string) (ls : list string) : res (dframe xr) :=
  match ls with
  | "T" :: _ => Ok {| f_index := [0; 2]; f_cols := [("LUFTTEMPERATUR", [Fin 1; Fin 2])] |}
  | _ => Ok {| f_index := [1; 2]; f_cols := [(" REL_FEUCHTE", [Fin 50; NaN])] |}
  end.
Example C88_met : exists h fr v w, read_dwd_list toy2 toy_rows "h" None [["T"]; ["F"]] = Ok (h, fr) /\ f_index fr = [0; 1; 2] /\
  f_cols fr = [("tmean", v); ("hum", w)] /\ v = [celsius (Fin 1); NaN; celsius (Fin 2)] /\ w = [NaN; Fin 50; NaN].
Proof. do 4 eexists. split; [reflexivity|]. repeat split; reflexivity. Qed.
Example C88_overlap_met : read_dwd_list toy2 toy_rows "h" None [["T"]; ["T"]] = Err ValueError.
Proof. reflexivity. Qed.

Print Assumptions C64_stamps.
Print Assumptions C64_hours.
Print Assumptions C64_rejected.
Print Assumptions C64_current_pandas.
Print Assumptions C64_dataset.
Print Assumptions C64_values.
Print Assumptions C64_precip_f64.
Print Assumptions C64_sunshine.
Print Assumptions C65_false_is_true.
Print Assumptions C65_last_line_ignored.
Print Assumptions C65_none_keeps.
Print Assumptions C65_several_files.
Print Assumptions C87_columns.
Print Assumptions C87_no_temp.
Print Assumptions C87_mode.
Print Assumptions C87_header.
Print Assumptions C87_no_header.
Print Assumptions C88_joined.
Print Assumptions C88_overlap.
Print Assumptions C88_no_files.
