(** SMET files: properties C60 to C63 and C86. *)
From Coq Require Import String Ascii ZArith NArith Reals List Bool Lia Lra.
From Verif Require Import Py Num Cal Series Frame SmetModel SpecSmet SmetProofs.
Import ListNotations.
Open Scope string_scope.
Open Scope Z_scope.
Open Scope list_scope.

(** ** which columns are dropped *)
Lemma fold_nan l : Forall (fun x => xisnan x = false) l -> forall acc,
  xisnan (fold_left xadd l acc) = xisnan acc || ((is_pinf acc || existsb is_pinf l) && (is_ninf acc || existsb is_ninf l)).
Proof.
  induction 1 as [|x l H F IH]; intro acc; cbn [fold_left existsb]; [destruct acc; reflexivity|]. rewrite IH.
  destruct acc, x; try discriminate; cbn; rewrite ?orb_false_r, ?orb_true_r; try reflexivity; destruct (existsb is_pinf l), (existsb is_ninf l); reflexivity.
Qed.
Lemma filter_exists (p : xr -> bool) l : p NaN = false -> existsb p (filter (fun x => negb (xisnan x)) l) = existsb p l.
Proof. intro H. induction l as [|x l IH]; [reflexivity|]. destruct x; cbn; rewrite ?IH, ?H; reflexivity. Qed.
Lemma sum_nan l : xisnan (col_sum l) = existsb is_pinf l && existsb is_ninf l.
Proof.
  unfold col_sum. rewrite fold_nan; [|apply Forall_forall; intros x I; apply filter_In in I as [_ I]; destruct x; try reflexivity; discriminate].
  cbn. rewrite !filter_exists by reflexivity. reflexivity.
Qed.
Lemma kept_cols (check : bool) (cols : list (string * list xr)) : (if check then drop_nan else fun c : list (string * list xr) => c) cols = written_cols check cols.
Proof.
  unfold written_cols, drop_nan. destruct check; cbn [andb].
  - apply filter_ext. intros c. rewrite sum_nan. reflexivity.
  - induction cols as [|c cols IH]; [reflexivity|]. cbn. f_equal. exact IH.
Qed.
Lemma written_rename check dict (cols : list (string * list xr)) : written_cols check (rename dict cols) = rename dict (written_cols check cols).
Proof.
  unfold written_cols, rename. induction cols as [|c cols IH]; [reflexivity|]. cbn [map filter snd]. destruct (negb _); cbn [map]; rewrite IH; reflexivity.
Qed.

(** ** names *)
Definition taken_h : list string := ["TA"; "PSUM"; "ISWR"; "RH"; "VW"].
Definition taken_d : list string := ["TA"; "TMAX"; "TMIN"; "PSUM"; "ISWR"; "RH"; "VW"].
Lemma word_lit s : s <> "" -> forallb (fun c => negb (is_space c) && negb (Ascii.eqb c "="%char) && negb (Ascii.eqb c """"%char)) (chars s) = true -> word s.
Proof.
  intros N H. rewrite forallb_forall in H. split; [exact N|]. repeat split.
  - intros c I. apply H in I. rewrite !andb_true_iff, !negb_true_iff in I. apply is_space_false. tauto.
  - intro I. apply H in I. discriminate.
  - intro I. apply H in I. discriminate.
Qed.
Lemma write_h_back n : ~ In n taken_h -> rename_name read_h (rename_name write_h n) = n.
Proof.
  intro N. unfold rename_name at 2. cbn [assoc write_h].
  repeat (match goal with |- context [String.eqb ?a n] => destruct (String.eqb_spec a n) as [E|]; [rewrite <- E; reflexivity|] end).
  unfold rename_name. cbn [assoc read_h]. unfold taken_h in N. cbn [In] in N.
  repeat (match goal with |- context [String.eqb ?a n] => destruct (String.eqb_spec a n) as [E|]; [exfalso; tauto|] end). reflexivity.
Qed.
Lemma write_d_back n : ~ In n taken_d -> rename_name read_d (rename_name write_d n) = exchanged n.
Proof.
  intro N. unfold rename_name at 2. cbn [assoc write_d].
  repeat (match goal with |- context [String.eqb ?a n] => destruct (String.eqb_spec a n) as [E|]; [rewrite <- E; reflexivity|] end).
  unfold rename_name. cbn [assoc read_d]. unfold taken_d in N. cbn [In] in N.
  repeat (match goal with |- context [String.eqb ?a n] => destruct (String.eqb_spec a n) as [E|]; [exfalso; tauto|] end).
  unfold exchanged. destruct (string_dec n "tmin"); [congruence|]. destruct (string_dec n "tmax"); [congruence|]. reflexivity.
Qed.
Lemma exchanged_twice n : exchanged (exchanged n) = n.
Proof.
  unfold exchanged. destruct (string_dec n "tmin") as [->|]; [reflexivity|]. destruct (string_dec n "tmax") as [->|]; [reflexivity|].
  destruct (string_dec n "tmin"); [congruence|]. destruct (string_dec n "tmax"); [congruence|]. reflexivity.
Qed.
Lemma write_word dict n : In dict [write_d; write_h] -> word n -> word (rename_name dict n).
Proof.
  intros D W. unfold rename_name. destruct D as [<-|[<-|[]]]; cbn [assoc write_d write_h];
  repeat (match goal with |- context [String.eqb ?a n] => destruct (String.eqb a n); [apply word_lit; [discriminate|reflexivity]|] end); exact W.
Qed.
Lemma write_stamp dict n : In dict [write_d; write_h] -> n <> "timestamp" -> rename_name dict n <> "timestamp".
Proof.
  intros D W. unfold rename_name. destruct D as [<-|[<-|[]]]; cbn [assoc write_d write_h];
  repeat (match goal with |- context [String.eqb ?a n] => destruct (String.eqb a n); [discriminate|] end); exact W.
Qed.
Lemma NoDup_left_inv {A} (f g : A -> A) l : (forall a, In a l -> g (f a) = a) -> NoDup l -> NoDup (map f l).
Proof.
  intros H D. induction D as [|a l N D IH]; [constructor|]. cbn. constructor; [|apply IH; intros b B; apply H; right; exact B].
  intro I. apply in_map_iff in I as (b & E & I). apply N. rewrite <- (H a (or_introl eq_refl)), <- E, (H b (or_intror I)). exact I.
Qed.
Lemma written_sub check cols c : In c (written_cols check cols) -> In c cols.
Proof. intro I. apply filter_In in I. tauto. Qed.
Lemma written_NoDup check cols : NoDup (map fst cols) -> NoDup (map fst (written_cols check cols)).
Proof.
  unfold written_cols. induction cols as [|c cols IH]; cbn; intro D; [constructor|]. inversion D; subst. destruct (negb _); cbn; [constructor|]; auto.
  intro I. apply H1. apply in_map_iff in I as (c' & E & I). apply filter_In in I as [I _]. apply in_map_iff. exists c'. auto.
Qed.
Lemma rename_names dict (cols : list (string * list xr)) : map fst (rename dict cols) = map (rename_name dict) (map fst cols).
Proof. unfold rename. rewrite !map_map. reflexivity. Qed.

(** both modes at once *)
Definition case_of (mode : string) : list (string * string) * list (string * string) * list string * (string -> string) :=
  if String.eqb mode "d" then (write_d, read_d, taken_d, exchanged) else (write_h, read_h, taken_h, fun n => n).
Lemma trip pad fr m nodata mode check e : In mode ["d"; "h"] -> frame_ok (snd (fst (case_of mode))) fr -> header_ok m ->
  let m' := new_meta (map (rename_name (fst (fst (fst (case_of mode))))) (map fst (written_cols check (f_cols fr)))) m in
  exists file cols',
    write_smet pad fr m nodata mode check = ({| w_file := file; w_meta := m'; w_frame := fr |}, Ok tt) /\
    read_smet e mode file = Some (if has_del_index_name e then Ok (collect m' [], {| f_index := map (floor_of mode) (f_index fr); f_cols := cols' |}) else Err AttributeError) /\
    columns_back nodata (snd (case_of mode)) (written_cols check (f_cols fr)) cols'.
Proof.
  intros HM [R Y L W D F] HH m'.
  assert (X : exists wd rd tk nm, case_of mode = (wd, rd, tk, nm) /\ In wd [write_d; write_h] /\
    (forall A (c : list (string * A)), by_mode mode write_d write_h c = rename wd c) /\ (forall A (c : list (string * A)), by_mode mode read_d read_h c = rename rd c) /\
    (forall n, ~ In n tk -> rename_name rd (rename_name wd n) = nm n) /\ (forall n, nm (nm n) = n) /\ exists f, time_format mode = Some f).
  { destruct HM as [<-|[<-|[]]].
    - exists write_d, read_d, taken_d, exchanged. repeat split; auto using write_d_back, exchanged_twice; [left; reflexivity|eexists; reflexivity].
    - exists write_h, read_h, taken_h, (fun n => n). repeat split; auto using write_h_back; [right; left; reflexivity|eexists; reflexivity]. }
  destruct X as (wd & rd & tk & nm & EC & WD & EW & ER & BK & INV & f & HF). unfold m' in *. clear m'. rewrite EC in *. cbn [fst snd] in *.
  set (kept := written_cols check (f_cols fr)).
  assert (EK : (if check then drop_nan else fun c : list (string * list xr) => c) (by_mode mode write_d write_h (f_cols fr)) = rename wd kept) by (rewrite kept_cols, EW; apply written_rename).
  assert (FR : forall c, In c kept -> fst c <> "timestamp" /\ ~ In (fst c) tk).
  { intros c I. apply written_sub in I. apply (in_map fst) in I. apply F in I. cbn in I. split; [intro Q; apply I; left; congruence|tauto]. }
  assert (H1 : Forall (fun c => List.length (snd c) = List.length (f_index fr)) (rename wd kept)).
  { apply Forall_map, Forall_forall. intros c I. rewrite Forall_forall in L. apply (L c). exact (written_sub check _ _ I). }
  assert (H2 : Forall (fun c => word (fst c)) (rename wd kept)).
  { apply Forall_map, Forall_forall. intros c I. cbn [fst]. apply write_word; [exact WD|]. rewrite Forall_forall in W. apply (W c). exact (written_sub check _ _ I). }
  assert (H3 : NoDup (map fst (rename wd kept))).
  { rewrite rename_names. apply NoDup_left_inv with (g := fun n => nm (rename_name rd n)); [|apply written_NoDup, D].
    intros n I. apply in_map_iff in I as (c & <- & I). rewrite BK by (apply FR, I). apply INV. }
  assert (H4 : ~ In "timestamp" (map fst (rename wd kept))).
  { rewrite rename_names, map_map. intro I. apply in_map_iff in I as (c & E & I). revert E. apply write_stamp; [exact WD|apply FR, I]. }
  pose proof (write_ok pad nodata mode check f fr m HF Y R) as WO. pose proof (read_ok pad nodata mode check f fr m HF Y R) as RO. rewrite EK in WO, RO.
  specialize (WO H1 H2 H3 H4). specialize (RO H1 H2 H3 H4 HH e mode). rewrite rename_names in WO, RO.
  eexists. exists (rename rd (shown nodata (rename wd kept))). split; [exact WO|]. split; [rewrite RO, ER; reflexivity|].
  unfold columns_back, shown, rename. rewrite !map_map. cbn [fst snd].
  clear -FR BK. induction kept as [|c kept IH]; constructor.
  - cbn [fst snd]. split; [apply BK, FR; left; reflexivity|]. generalize (snd c). induction l; constructor; auto. apply filled_ok.
  - apply IH. intros c' I. apply FR. right. exact I.
Qed.

(** ** C60: hourly files *)
(** every frame, written and read back with pandas that still has [del index.name] *)
Theorem C60_roundtrip : forall pad fr m nodata check e, frame_ok taken_h fr -> header_ok m -> has_del_index_name e = true ->
  exists o h fr', write_smet pad fr m nodata "h" check = (o, Ok tt) /\ w_frame o = fr /\
    read_smet e "h" (w_file o) = Some (Ok (h, fr')) /\
    f_index fr' = map whole_minute (f_index fr) /\
    columns_back nodata (fun n => n) (written_cols check (f_cols fr)) (f_cols fr').
Proof.
  intros pad fr m nodata check e F H E. destruct (trip pad fr m nodata "h" check e (or_intror (or_introl eq_refl)) F H) as (file & cols' & W & R & B). rewrite E in R.
  eexists. eexists. eexists. split; [exact W|]. split; [reflexivity|]. split; [exact R|]. split; [reflexivity|exact B].
Qed.
(** with the pandas versions without [del index.name] the file is written but read_smet always fails (deviation) *)
Theorem C60_current_pandas : forall pad fr m nodata check mode e, In mode ["d"; "h"] -> frame_ok (if String.eqb mode "d" then taken_d else taken_h) fr -> header_ok m ->
  has_del_index_name e = false ->
  exists o, write_smet pad fr m nodata mode check = (o, Ok tt) /\ read_smet e mode (w_file o) = Some (Err AttributeError).
Proof.
  intros pad fr m nodata check mode e M F H E.
  assert (F' : frame_ok (snd (fst (case_of mode))) fr) by (unfold case_of; destruct (String.eqb mode "d"); exact F).
  destruct (trip pad fr m nodata mode check e M F' H) as (file & cols' & W & R & B). rewrite E in R.
  eexists. split; [exact W|exact R].
Qed.
(** missing values are missing again only under the marker -999; any other marker is read as a number *)
Theorem C60_missing : forall nodata y, cell_back nodata NaN y ->
  (y = NaN <-> nodata = NaN \/ exists r, nodata = Fin r /\ two_decimals r (-99900)).
Proof.
  intros nodata y H. cbn in H. destruct nodata as [r| | |]; cbn in H; try (subst y; split; [discriminate || auto|intros [Q|(r & Q & _)]; discriminate || auto]).
  destruct H as (k & T & ->). destruct (Z.eqb_spec k (-99900)) as [->|N].
  - split; [intros _; right; eauto|reflexivity].
  - split; [discriminate|]. intros [Q|(r' & Q & T')]; [discriminate|]. injection Q as <-. exfalso.
    destruct T as [T1 T2], T' as [T1' T2'].
    assert (B : (Rabs (IZR k / 100 - IZR (-99900) / 100) <= 1 / 100)%R).
    { replace (IZR k / 100 - IZR (-99900) / 100)%R with ((IZR k / 100 - r) - (IZR (-99900) / 100 - r))%R by ring.
      eapply Rle_trans; [apply Rabs_triang|]. rewrite Rabs_Ropp. lra. }
    assert (C : k = -99899 \/ k = -99901).
    { assert (-99902 < k < -99898). { split; apply lt_IZR; revert B; unfold Rabs; destruct (Rcase_abs _); lra. } lia. }
    assert (Q : Z.even k = false) by (destruct C as [->| ->]; reflexivity).
    assert (T3 : Rabs (IZR k / 100 - r) = (1 / 200)%R).
    { apply Rle_antisym; [exact T1|]. revert T1 T1'. destruct C as [-> | ->]; unfold Rabs; destruct (Rcase_abs _), (Rcase_abs _); lra. }
    rewrite (T2 T3) in Q. discriminate.
Qed.
(** a number that is printed as -999.00 comes back as missing (deviation) *)
Theorem C60_value_lost : forall nodata r y, two_decimals r (-99900) -> cell_back nodata (Fin r) y -> y = NaN.
Proof.
  intros nodata r y T H. apply (C60_missing (Fin r) y H). right. eauto.
Qed.
(** everything else is within half a hundredth *)
Theorem C60_close : forall nodata r y, cell_back nodata (Fin r) y -> y = NaN \/ exists r', y = Fin r' /\ (Rabs (r' - r) <= 1 / 200)%R.
Proof. intros nodata r y (k & [T _] & ->). destruct (k =? -99900); [left; reflexivity|]. right. eauto. Qed.

(** ** C61: daily files *)
Theorem C61_exchanged : forall pad fr m nodata check e, frame_ok taken_d fr -> header_ok m -> has_del_index_name e = true ->
  exists o h fr', write_smet pad fr m nodata "d" check = (o, Ok tt) /\ w_frame o = fr /\
    read_smet e "d" (w_file o) = Some (Ok (h, fr')) /\
    f_index fr' = map whole_day (f_index fr) /\
    columns_back nodata exchanged (written_cols check (f_cols fr)) (f_cols fr').
Proof.
  intros pad fr m nodata check e F H E. destruct (trip pad fr m nodata "d" check e (or_introl eq_refl) F H) as (file & cols' & W & R & B). rewrite E in R.
  eexists. eexists. eexists. split; [exact W|]. split; [reflexivity|]. split; [exact R|]. split; [reflexivity|exact B].
Qed.

(** ** C62: the header *)
(** the dictionary of the caller afterwards: everything it had, and the two added entries *)
Theorem C62_metadata : forall pad fr m nodata check mode, In mode ["d"; "h"] -> frame_ok (if String.eqb mode "d" then taken_d else taken_h) fr -> header_ok m ->
  exists o names, write_smet pad fr m nodata mode check = (o, Ok tt) /\ List.length names = List.length (written_cols check (f_cols fr)) /\
    assoc "fields" (w_meta o) = Some (String.concat " " ("timestamp" :: names)) /\
    assoc "units_multiplier" (w_meta o) = Some (String.concat "" (map (fun _ => "1 ") ("timestamp" :: names))) /\
    (forall k, k <> "fields" -> k <> "units_multiplier" -> assoc k (w_meta o) = assoc k m) /\
    (exists added, map fst (w_meta o) = map fst m ++ added /\ forall k, In k added -> k = "fields" \/ k = "units_multiplier").
Proof.
  intros pad fr m nodata check mode M F H.
  assert (F' : frame_ok (snd (fst (case_of mode))) fr) by (unfold case_of; destruct (String.eqb mode "d"); exact F).
  destruct (trip pad fr m nodata mode check legacy M F' H) as (file & cols' & W & _ & _).
  set (names := map (rename_name (fst (fst (fst (case_of mode))))) (map fst (written_cols check (f_cols fr)))) in *.
  eexists. exists names. split; [exact W|]. split; [unfold names; rewrite !map_length; reflexivity|]. cbn [w_meta]. unfold new_meta.
  split; [rewrite !dset_assoc; reflexivity|]. split.
  { rewrite dset_assoc. cbn [String.eqb Ascii.eqb Bool.eqb]. f_equal.
    assert (R : forall l : list string, repeat_text "1 " (List.length l) = String.concat "" (map (fun _ => "1 ") l)).
    { induction l as [|a l IH]; [reflexivity|]. cbn [List.length repeat_text map]. rewrite IH. destruct (map (fun _ => "1 ") l); reflexivity. }
    exact (R ("timestamp" :: names)). }
  split.
  - intros k N1 N2. rewrite !dset_assoc. destruct (String.eqb_spec "units_multiplier" k); [congruence|]. destruct (String.eqb_spec "fields" k); [congruence|reflexivity].
  - rewrite !dset_keys. destruct (existsb (String.eqb "fields") (map fst m)).
    + destruct (existsb _ _); [exists []; rewrite app_nil_r; split; [reflexivity|intros k []]|]. exists ["units_multiplier"]. split; [reflexivity|]. cbn. intuition.
    + destruct (existsb _ _); [exists ["fields"]; split; [reflexivity|]; cbn; intuition|]. exists ["fields"; "units_multiplier"]. rewrite <- app_assoc. split; [reflexivity|]. cbn. intuition.
Qed.
(** what read_smet returns as header: for every entry the trimmed key and the trimmed text up to the first '=' *)
Theorem C62_header : forall pad fr m nodata check mode e, In mode ["d"; "h"] -> frame_ok (if String.eqb mode "d" then taken_d else taken_h) fr -> header_ok m ->
  has_del_index_name e = true -> (forall p q, In p m -> In q m -> forall k, trimmed (fst p) k -> trimmed (fst q) k -> p = q) ->
  exists o h fr', write_smet pad fr m nodata mode check = (o, Ok tt) /\ read_smet e mode (w_file o) = Some (Ok (h, fr')) /\
    Forall2 (fun p q => trimmed (fst p) (fst q) /\ exists v, cut (snd p) v /\ trimmed v (snd q)) (w_meta o) h.
Proof.
  intros pad fr m nodata check mode e M F H E U.
  assert (F' : frame_ok (snd (fst (case_of mode))) fr) by (unfold case_of; destruct (String.eqb mode "d"); exact F).
  destruct (trip pad fr m nodata mode check e M F' H) as (file & cols' & W & R & _). rewrite E in R.
  eexists. eexists. eexists. split; [exact W|]. split; [exact R|]. cbn [w_meta].
  set (names := map (rename_name (fst (fst (fst (case_of mode))))) (map fst (written_cols check (f_cols fr)))) in *.
  assert (D : NoDup (map (fun p => fst (entry_of p)) (new_meta names m))).
  { pose proof (ho_keys m H) as KD. assert (ND : NoDup (map fst (new_meta names m))) by (apply dset_NoDup, dset_NoDup, KD).
    assert (I1 : forall k v k' v', In (k, v) (new_meta names m) -> In (k', v') (new_meta names m) -> strip k = strip k' -> k = k').
    { assert (HK : forall k v, In (k, v) (new_meta names m) -> (strip k = "fields" -> k = "fields") /\ (strip k = "units_multiplier" -> k = "units_multiplier")).
      { intros k v I. apply new_meta_In in I; [|exact KD]. destruct I as [[-> _]|[[-> _]|I]]; [split; [discriminate|reflexivity]|split; [reflexivity|discriminate]|].
        split; intro Q; [apply (ho_fields m H (k, v) I)|apply (ho_units m H (k, v) I)]; apply strip_iff; exact Q. }
      intros k v k' v' I J Q. destruct (HK k v I) as [A1 A2]. destruct (HK k' v' J) as [B1 B2].
      apply new_meta_In in I; [|exact KD]. apply new_meta_In in J; [|exact KD].
      destruct I as [[-> _]|[[-> _]|I]]; [symmetry; apply B2; rewrite <- Q; reflexivity|symmetry; apply B1; rewrite <- Q; reflexivity|].
      destruct J as [[-> _]|[[-> _]|J]]; [apply A2; rewrite Q; reflexivity|apply A1; rewrite Q; reflexivity|].
      assert (EQ : (k, v) = (k', v')) by (eapply U; eauto; cbn [fst]; apply strip_iff; [exact Q|reflexivity]). congruence. }
    revert ND I1. generalize (new_meta names m). intro l. induction l as [|[k v] l IH]; cbn [map fst]; intros ND I1; [constructor|]. inversion ND; subst. constructor.
    - intro I. apply in_map_iff in I as ([k' v'] & Q & I). unfold entry_of in Q. cbn [fst] in Q. apply H2. rewrite (I1 k v k' v'); [apply (in_map fst) in I; exact I|left; reflexivity|right; exact I|symmetry; exact Q].
    - apply IH; [assumption|]. intros a b a' b' I J. apply (I1 a b a' b'); right; assumption. }
  rewrite collect_distinct by exact D. cbn [app]. clear. induction (new_meta names m) as [|p l IH]; constructor; [|exact IH].
  cbn [entry_of fst snd]. split; [apply strip_trimmed|]. exists (until "="%char (snd p)). split; [apply until_cut|apply strip_trimmed].
Qed.
(** in particular: entries without '=' and without surrounding white space come back as they are *)
Theorem C62_clean_entry : forall k v k' v', trimmed k k -> trimmed v v -> without "="%char v ->
  trimmed k k' -> (exists w, cut v w /\ trimmed w v') -> k' = k /\ v' = v.
Proof.
  intros k v k' v' TK TV W T (w & [W' C] & T'). split; [eapply trimmed_fun; eassumption|].
  destruct C as [->|(r & ->)]; [eapply trimmed_fun; eassumption|]. exfalso. apply without_app in W as [_ W]. apply W. left. reflexivity.
Qed.
(** a line of the header without '=' (such as the rest of a value with a line break) cannot be read *)
Theorem C62_no_equals : forall e mode before l rest, Forall single_line before -> single_line l -> without "="%char l ->
  ~ trimmed l "[DATA]" -> ~ trimmed l "[HEADER]" -> Forall (fun b => ~ trimmed b "[DATA]") before -> In "[HEADER]" before ->
  Forall (fun b => trimmed b "[HEADER]" \/ In "="%char (chars b)) (tl before) ->
  read_smet e mode (String.concat (String "010" "") (before ++ [l]) ++ String "010"%char rest) = Some (Err IndexError).
Proof.
  intros e mode before l rest FB FL W ND NH FD IH FE.
  assert (E : (String.concat (String "010" "") (before ++ [l]) ++ String "010"%char rest)%string = (String.concat "" (map nl (before ++ [l])) ++ rest)%string).
  { clear. change (String "010"%char rest) with (String LF "" ++ rest)%string. rewrite <- sapp_assoc. f_equal. change (String "010" "") with (String LF "").
    induction before as [|b bs IH]; [reflexivity|]. cbn [app map]. 
    assert (N : exists x xs, bs ++ [l] = x :: xs) by (destruct bs; cbn; eauto). destruct N as (x & xs & N). rewrite N in *. cbn [map] in *.
    change (String.concat (String LF "") (b :: x :: xs)) with (b ++ String LF "" ++ String.concat (String LF "") (x :: xs))%string.
    change (String.concat "" (nl b :: nl x :: map nl xs)) with (nl b ++ String.concat "" (nl x :: map nl xs))%string. rewrite <- IH. unfold nl. rewrite !sapp_assoc. reflexivity. }
  assert (FA : Forall flat (before ++ [l])).
  { apply Forall_app. split; [eapply Forall_impl; [|exact FB]; unfold single_line, flat; intros a H; tauto|]. apply Forall_cons; [unfold single_line, flat in *; tauto|apply Forall_nil]. }
  rewrite E. unfold read_smet. rewrite lines_block by exact FA.
  rewrite <- app_assoc. cbn [app].
  assert (L1 : String.eqb (strip l) "[HEADER]" = false) by (destruct (String.eqb_spec (strip l) "[HEADER]") as [Q|]; [exfalso; apply NH, strip_iff, Q|reflexivity]).
  assert (L2 : String.eqb (strip l) "[DATA]" = false) by (destruct (String.eqb_spec (strip l) "[DATA]") as [Q|]; [exfalso; apply ND, strip_iff, Q|reflexivity]).
  apply after_none in W.
  assert (S1 : forall bs h, Forall (fun b => ~ trimmed b "[DATA]") bs -> Forall (fun b => trimmed b "[HEADER]" \/ In "="%char (chars b)) bs ->
    read_header true h (bs ++ l :: lines rest) = Err IndexError).
  { induction bs as [|b bs IHb]; intros h F1 F2; cbn [app read_header].
    - rewrite L1, L2, W. reflexivity.
    - inversion F1; inversion F2; subst.
      assert (L3 : String.eqb (strip b) "[DATA]" = false) by (destruct (String.eqb_spec (strip b) "[DATA]") as [Q|]; [exfalso; apply H1, strip_iff, Q|reflexivity]).
      rewrite L3. destruct (String.eqb_spec (strip b) "[HEADER]") as [Q|Q]; [apply IHb; auto|]. destruct H5 as [H5|H5]; [apply strip_iff in H5; contradiction|].
      destruct (after "="%char b) eqn:A; [apply IHb; auto|]. apply after_none in A. contradiction. }
  assert (R : read_header false [] (before ++ l :: lines rest) = Err IndexError); [|rewrite R; reflexivity].
  destruct before as [|b bs]; [contradiction|]. cbn [tl] in FE. cbn [app read_header]. inversion FD; subst.
  assert (L3 : String.eqb (strip b) "[DATA]" = false) by (destruct (String.eqb_spec (strip b) "[DATA]") as [Q|]; [exfalso; apply H1, strip_iff, Q|reflexivity]).
  rewrite L3. destruct (String.eqb_spec (strip b) "[HEADER]") as [Q|Q]; [apply S1; auto|].
  assert (IB : In "[HEADER]" bs) by (destruct IH as [->|IH]; [exfalso; apply Q; reflexivity|exact IH]).
  clear Q L3 H1 FD FB E FA IH b. revert H2 FE IB. induction bs as [|b bs IHb]; intros F1 F2 I; [contradiction|]. cbn [app read_header]. inversion F1; inversion F2; subst.
  assert (L3 : String.eqb (strip b) "[DATA]" = false) by (destruct (String.eqb_spec (strip b) "[DATA]") as [Q|]; [exfalso; apply H1, strip_iff, Q|reflexivity]).
  rewrite L3. destruct (String.eqb_spec (strip b) "[HEADER]") as [Q|Q]; [apply S1; auto|]. destruct I as [->|I]; [exfalso; apply Q; reflexivity|]. apply IHb; auto.
Qed.

(** ** C63: an unknown mode *)
Theorem C63_file_lost : forall pad fr m nodata mode check, mode <> "d" -> mode <> "h" -> f_index fr <> [] ->
  write_smet pad fr m nodata mode check = ({| w_file := ""; w_meta := m; w_frame := fr |}, Err UnboundLocalError).
Proof.
  intros pad fr m nodata mode check ND NH NE. unfold write_smet, time_format. destruct (String.eqb_spec mode "d"); [congruence|]. destruct (String.eqb_spec mode "h"); [congruence|].
  destruct (f_index fr); [congruence|reflexivity].
Qed.
(** without rows the unset format is never looked at: the call succeeds, and without [check_nan] the frame of the caller gets a new column *)
Theorem C63_no_rows : forall pad fr m nodata mode check, mode <> "d" -> mode <> "h" -> f_index fr = [] ->
  exists o, write_smet pad fr m nodata mode check = (o, Ok tt) /\ (check = true -> w_frame o = fr) /\
    (check = false -> assoc "timestamp" (f_cols (w_frame o)) = Some [] /\ forall k, k <> "timestamp" -> assoc k (f_cols (w_frame o)) = assoc k (f_cols fr)).
Proof.
  intros pad fr m nodata mode check ND NH NE. unfold write_smet, time_format. destruct (String.eqb_spec mode "d"); [congruence|]. destruct (String.eqb_spec mode "h"); [congruence|].
  rewrite NE. eexists. split; [reflexivity|]. cbn [w_frame]. split; intros ->; [reflexivity|]. cbn [f_cols]. split; [rewrite dset_assoc; reflexivity|].
  intros k NK. rewrite dset_assoc. destruct (String.eqb_spec "timestamp" k); [congruence|reflexivity].
Qed.

(** ** C86: check_nan *)
Lemma what_is_dropped : forall check cols c, In c (written_cols check cols) <-> In c cols /\ ~ (check = true /\ In PInf (snd c) /\ In NInf (snd c)).
Proof.
  intros check cols c. unfold written_cols. rewrite filter_In, negb_true_iff.
  assert (P : existsb is_pinf (snd c) = true <-> In PInf (snd c)).
  { rewrite existsb_exists. split; [intros (x & I & Q); destruct x; try discriminate; exact I|intro I; eauto]. }
  assert (N : existsb is_ninf (snd c) = true <-> In NInf (snd c)).
  { rewrite existsb_exists. split; [intros (x & I & Q); destruct x; try discriminate; exact I|intro I; eauto]. }
  rewrite <- P, <- N. destruct check, (existsb is_pinf (snd c)), (existsb is_ninf (snd c)); cbn; intuition congruence.
Qed.
(** the file lacks exactly the columns with both infinities, and these only when [check_nan] is set *)
Theorem C86_dropped : forall pad fr m nodata check mode, In mode ["d"; "h"] -> frame_ok (if String.eqb mode "d" then taken_d else taken_h) fr -> header_ok m ->
  exists o h fr', write_smet pad fr m nodata mode check = (o, Ok tt) /\ read_smet legacy mode (w_file o) = Some (Ok (h, fr')) /\
    forall n l, In (n, l) (f_cols fr) ->
      (In (if String.eqb mode "d" then exchanged n else n) (map fst (f_cols fr')) <-> ~ (check = true /\ In PInf l /\ In NInf l)).
Proof.
  intros pad fr m nodata check mode M F H.
  assert (F' : frame_ok (snd (fst (case_of mode))) fr) by (unfold case_of; destruct (String.eqb mode "d"); exact F).
  destruct (trip pad fr m nodata mode check legacy M F' H) as (file & cols' & W & R & B). cbn [legacy has_del_index_name] in R.
  eexists. eexists. eexists. split; [exact W|]. split; [exact R|]. cbn [f_cols]. intros n l I.
  replace (if String.eqb mode "d" then exchanged n else n) with (snd (case_of mode) n) by (unfold case_of; destruct (String.eqb mode "d"); reflexivity).
  assert (E : map fst cols' = map (snd (case_of mode)) (map fst (written_cols check (f_cols fr)))).
  { clear -B. unfold columns_back in B. induction B as [|c c' a b [E _] B IH]; cbn [map]; [reflexivity|]. rewrite E, IH. reflexivity. }
  assert (INJ : forall a b, snd (case_of mode) a = snd (case_of mode) b -> a = b).
  { unfold case_of. destruct (String.eqb mode "d"); cbn [snd]; intros a b Q; [|exact Q]. rewrite <- (exchanged_twice a), Q. apply exchanged_twice. }
  rewrite E. assert (D : In (snd (case_of mode) n) (map (snd (case_of mode)) (map fst (written_cols check (f_cols fr)))) <-> In (n, l) (written_cols check (f_cols fr))).
  { split; [|intro J; apply in_map; apply (in_map fst) in J; exact J]. intro J. apply in_map_iff in J as (n' & Q & J). apply INJ in Q. subst n'.
    apply in_map_iff in J as ([n' l'] & Q & J). cbn in Q. subst n'. pose proof (written_sub _ _ _ J) as J'.
    pose proof (fo_distinct _ _ F) as ND. apply (assoc_In _ _ _ ND) in J'. apply (assoc_In _ _ _ ND) in I. congruence. }
  rewrite D, what_is_dropped. cbn [snd]. tauto.
Qed.
(** columns without any value are written although the documentation promises the contrary (deviation) *)
Theorem C86_empty_column_written : forall pad fr m mode n, In mode ["d"; "h"] -> frame_ok (if String.eqb mode "d" then taken_d else taken_h) fr -> header_ok m ->
  In (n, repeat NaN (List.length (f_index fr))) (f_cols fr) ->
  exists o h fr', write_smet pad fr m (Fin (-999)) mode true = (o, Ok tt) /\ read_smet legacy mode (w_file o) = Some (Ok (h, fr')) /\
    In (if String.eqb mode "d" then exchanged n else n, repeat NaN (List.length (f_index fr))) (f_cols fr').
Proof.
  intros pad fr m mode n M F H I.
  assert (F' : frame_ok (snd (fst (case_of mode))) fr) by (unfold case_of; destruct (String.eqb mode "d"); exact F).
  destruct (trip pad fr m (Fin (-999)) mode true legacy M F' H) as (file & cols' & W & R & B). cbn [legacy has_del_index_name] in R.
  eexists. eexists. eexists. split; [exact W|]. split; [exact R|]. cbn [f_cols].
  assert (K : In (n, repeat NaN (List.length (f_index fr))) (written_cols true (f_cols fr))).
  { apply what_is_dropped. split; [exact I|]. intros (_ & P & _). apply repeat_spec in P. discriminate. }
  replace (if String.eqb mode "d" then exchanged n else n) with (snd (case_of mode) n) by (unfold case_of; destruct (String.eqb mode "d"); reflexivity).
  revert K B. generalize (written_cols true (f_cols fr)) as cols, (snd (case_of mode)) as nm. clear. intros cols nm K B. unfold columns_back in B.
  induction B as [|c c' cols cols' [E V] B IH]; [contradiction|]. destruct K as [->|K]; [|right; auto]. left. cbn [fst snd] in *. destruct c' as [n' l']. cbn in *. subst n'. f_equal.
  remember (repeat NaN (List.length (f_index fr))) as l eqn:El. revert El. generalize (List.length (f_index fr)) as k. clear -V.
  induction V as [|x y l l' C V IH]; intros k El; [destruct k; [reflexivity|discriminate]|]. destruct k as [|k]; [discriminate|]. injection El as -> ->. f_equal; [|eauto].
  apply (C60_missing (Fin (-999)) y); [exact C|]. right. exists (-999)%R. split; [reflexivity|]. unfold two_decimals. 
  replace (IZR (-99900) / 100 - -999)%R with 0%R by lra. rewrite Rabs_R0. split; [lra|reflexivity].
Qed.

(** ** the hypotheses are met *)
Definition ex_frame : dframe xr := {| f_index := [3661000000; 86400000000];
  f_cols := [("tmin", [Fin (-999); NaN]); ("temp", [Fin (1 / 3); PInf]); ("soil", [PInf; NInf]); ("snow", [NaN; NaN])] |}.
Definition ex_meta : meta := [("station_name", "a = b"); ("fields", "old"); (" nodata ", "-999 ")].
Lemma trimmed_inv s s' : strip s <> s' -> ~ trimmed s s'.
Proof. intros N T. apply N, strip_iff, T. Qed.
Lemma ex_frame_ok taken : In taken [taken_h; taken_d] -> frame_ok taken ex_frame.
Proof.
  intro T. constructor; cbn [ex_frame f_index f_cols].
  - discriminate.
  - repeat constructor; discriminate.
  - repeat constructor.
  - repeat constructor; try discriminate; cbn [fst]; try (intros c I; apply is_space_false; cbn in I; repeat (destruct I as [<-|I]; [reflexivity|]); contradiction); apply not_in_lit; reflexivity.
  - cbn. repeat constructor; cbn; intuition discriminate.
  - intros n I J. cbn in I. destruct T as [<-|[<-|[]]]; repeat (destruct I as [<-|I]; [cbn in J; intuition discriminate|]); contradiction.
Qed.
Lemma ex_meta_ok : header_ok ex_meta.
Proof.
  constructor; cbn [ex_meta].
  - cbn. repeat constructor; cbn; intuition discriminate.
  - repeat constructor; apply not_in_lit; reflexivity.
  - intros p I T. apply strip_iff in T. cbn [In] in I. repeat (destruct I as [<-|I]; [first [reflexivity|discriminate T]|]). contradiction.
  - intros p I T. apply strip_iff in T. cbn [In] in I. repeat (destruct I as [<-|I]; [first [reflexivity|discriminate T]|]). contradiction.
Qed.
Example C60_met : frame_ok taken_h ex_frame /\ header_ok ex_meta /\ has_del_index_name legacy = true /\ has_del_index_name modern = false /\
  two_decimals (-999.004) (-99900) /\ ~ two_decimals (-999.006) (-99900).
Proof.
  split; [apply ex_frame_ok; left; reflexivity|]. split; [apply ex_meta_ok|]. split; [reflexivity|]. split; [reflexivity|]. unfold two_decimals. split.
  - split; [|reflexivity]. unfold Rabs. destruct (Rcase_abs _); lra.
  - intros [H _]. revert H. unfold Rabs. destruct (Rcase_abs _); lra.
Qed.
Example C61_met : frame_ok taken_d ex_frame /\ exchanged "tmin" = "tmax" /\ exchanged "temp" = "temp".
Proof. split; [apply ex_frame_ok; right; left; reflexivity|split; reflexivity]. Qed.
Example C62_met : (forall p q, In p ex_meta -> In q ex_meta -> forall k, trimmed (fst p) k -> trimmed (fst q) k -> p = q) /\
  trimmed " nodata " "nodata" /\ cut "a = b" "a " /\ trimmed "a " "a".
Proof.
  split; [|split; [apply strip_iff; reflexivity|split; [|apply strip_iff; reflexivity]]].
  - intros p q I J k T T'. apply strip_iff in T. apply strip_iff in T'. rewrite <- T' in T. cbn [In ex_meta] in I, J.
    destruct I as [<-|[<-|[<-|[]]]]; destruct J as [<-|[<-|[<-|[]]]]; try reflexivity; discriminate T.
  - split; [apply not_in_lit; reflexivity|]. right. exists " b". reflexivity.
Qed.
(** a station name with a line break *)
Example C62_line_break : read_smet legacy "h" (nl "SMET 1.1 ASCII" ++ nl "[HEADER]" ++ nl "station_name = upper" ++ nl "station" ++ nl "[DATA]") = Some (Err IndexError).
Proof. reflexivity. Qed.
Example C63_met : f_index ex_frame <> [] /\ "daily" <> "d" /\ "daily" <> "h".
Proof. repeat split; discriminate. Qed.
Example C86_met : In ("snow", repeat NaN 2) (f_cols ex_frame) /\ ~ In ("soil", [PInf; NInf]) (written_cols true (f_cols ex_frame)).
Proof. split; [right; right; right; left; reflexivity|]. intro I. apply what_is_dropped in I as [_ I]. apply I. cbn. auto. Qed.

Print Assumptions C60_roundtrip.
Print Assumptions C60_current_pandas.
Print Assumptions C60_missing.
Print Assumptions C60_value_lost.
Print Assumptions C60_close.
Print Assumptions C61_exchanged.
Print Assumptions C62_metadata.
Print Assumptions C62_header.
Print Assumptions C62_clean_entry.
Print Assumptions C62_no_equals.
Print Assumptions C63_file_lost.
Print Assumptions C63_no_rows.
Print Assumptions C86_dropped.
Print Assumptions C86_empty_column_written.
