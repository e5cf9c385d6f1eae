(** Theorems added after wrong programs had gone unnoticed: C21 (days the master record does not have), C30 (rows of a
    mean course), C54 (which exception), C59 (names of the dict type). *)
From Coq Require Import String Ascii ZArith List Bool Lia Reals Lra Sorted.
From Verif Require Import Py Num Cal Series Frame UtilModel UtilModel2 SpecBase SpecUtil TimeProofs IndexProofs DaysProofs CascadeModel
  PrecipModel SpecCascade EqualProofs MasterProofs CourseProofs CascadeProofs.
Import ListNotations.
Open Scope Z_scope.

(** ** C21 *)
Lemma day_in_range (master : series xr) uniform out t a t0 t1 :
  StronglySorted Z.lt (map fst master) -> hd_error (map fst master) = Some t0 -> last (map fst master) 0 = t1 ->
  master_day master uniform out t a
  = if (t0 / us_day <=? date_of t) && (date_of t <=? t1 / us_day)
    then Ok (set_day (date_of t) (master_value master uniform (date_of t) a) out) else Err KeyError.
Proof.
  intros SS H0 H1. destruct master as [|[u v] m]; [discriminate|]. injection H0 as ->.
  assert (L : fst (last ((t0, v) :: m) (t0, n_nan)) = t1).
  { rewrite <- H1. clear. generalize (t0, v). generalize (t0, n_nan : xr). intros q p. revert p. induction m as [|y m IH]; intro p; [reflexivity|].
    change (last (p :: y :: m) q) with (last (y :: m) q). rewrite IH. reflexivity. }
  destruct (rows_on (date_of t) ((t0, v) :: m)) as [|p r] eqn:RO.
  - unfold master_day. rewrite L. change (date_of t0) with (t0 / us_day). change (date_of t1) with (t1 / us_day).
    replace ((t0 / us_day <=? date_of t) && (date_of t <=? t1 / us_day)) with (negb ((date_of t <? t0 / us_day) || (t1 / us_day <? date_of t)))
      by (rewrite negb_orb, !Z.leb_antisym; reflexivity).
    destruct ((date_of t <? t0 / us_day) || (t1 / us_day <? date_of t)); [reflexivity|]. cbn [negb]. cbv zeta.
    change (filter (fun p => date_of (fst p) =? date_of t) ((t0, v) :: m)) with (rows_on (date_of t) ((t0, v) :: m)).
    assert (U : MasterProofs.usable (master_total ((t0, v) :: m) (date_of t)) = false).
    { unfold master_total, values_on. fold (rows_on (date_of t) ((t0, v) :: m)). rewrite RO. unfold MasterProofs.usable. cbn [map]. rewrite (nansum_numeric []) by constructor. change (Rsum (fins [])) with 0%R. cbn [n_isnan Num_xr xisnan].
      rewrite n0_xr, xeqb_Fin. destruct (Reqb_spec 0 0) as [_|X]; [reflexivity|exfalso; apply X; reflexivity]. }
    change (nansum (values (rows_on (date_of t) ((t0, v) :: m)))) with (master_total ((t0, v) :: m) (date_of t)).
    fold (MasterProofs.usable (master_total ((t0, v) :: m) (date_of t))). rewrite U. unfold master_value, set_day.
    destruct uniform; apply (f_equal Ok); apply map_ext; intros [x w]; cbn [fst snd]; rewrite U; reflexivity.
  - rewrite master_day_ok by (try exact SS; rewrite RO; discriminate).
    pose proof (sorted_range m (date_of t) t0 v SS ltac:(rewrite RO; discriminate)) as [A B]. rewrite L in B.
    change (date_of t0) with (t0 / us_day) in A. change (date_of t1) with (t1 / us_day) in B.
    apply Z.leb_le in A, B. rewrite A, B. reflexivity.
Qed.
Lemma days_in_range (master : series xr) uniform t0 t1 (days : series xr) :
  StronglySorted Z.lt (map fst master) -> hd_error (map fst master) = Some t0 -> last (map fst master) 0 = t1 ->
  NoDup (map date_of (map fst days)) ->
  forall out,
  (Exists (fun t => date_of t < t0 / us_day \/ t1 / us_day < date_of t) (map fst days) -> master_days master uniform days out = Err KeyError) /\
  (Forall (fun t => t0 / us_day <= date_of t <= t1 / us_day) (map fst days) ->
   exists out', master_days master uniform days out = Ok out' /\ map fst out' = map fst out /\
      (forall t a, In (t, a) days ->
         values_on (date_of t) out' = map (master_value master uniform (date_of t) a) (map fst (rows_on (date_of t) out))) /\
      (forall d, ~ In d (map date_of (map fst days)) -> values_on d out' = values_on d out)).
Proof.
  intros SS H0 H1. induction days as [|[t a] days IH]; intros ND out.
  - split; [intro H; inversion H|]. intros _. exists out. repeat split. intros ? ? [].
  - cbn [map fst] in ND |- *. inversion ND as [|? ? NI ND']; subst x l. cbn [master_days]. rewrite (day_in_range _ _ _ _ _ _ _ SS H0 H1).
    destruct ((t0 / us_day <=? date_of t) && (date_of t <=? t1 / us_day)) eqn:IN; cbn [bind].
    + apply andb_true_iff in IN as [A B]. apply Z.leb_le in A, B.
      destruct (IH ND' (set_day (date_of t) (master_value master uniform (date_of t) a) out)) as [IE IO]. split.
      * intro E. inversion E as [? ? [X|X]|? ? X]; subst; [lia|lia|]. apply IE, X.
      * intro F. inversion F as [|? ? _ F']; subst. destruct (IO F') as (out' & E & I & D & O). exists out'.
        split; [exact E|]. split; [rewrite I; apply set_day_index|]. split.
        -- intros u b [H|H].
           ++ injection H as <- <-. rewrite O by exact NI. apply set_day_on.
           ++ rewrite (D u b H). f_equal.
              assert (G : forall s1 s2 : series xr, map fst s1 = map fst s2 -> forall d, map fst (rows_on d s1) = map fst (rows_on d s2)).
              { clear. induction s1 as [|[x y] s1 IH]; intros [|[x' y'] s2] H d; try discriminate; [reflexivity|].
                cbn [map fst] in H. injection H as <- H. unfold rows_on. cbn [filter fst].
                destruct (x / us_day =? d); cbn [map fst]; [f_equal|]; apply IH; exact H. }
              apply G. apply set_day_index.
        -- intros d Hd. rewrite O by (intro; apply Hd; right; assumption). apply set_day_off. intro; subst; apply Hd; left; reflexivity.
    + split; [reflexivity|]. intro F. inversion F as [|? ? [A B] _]; subst. apply Z.leb_le in A, B. rewrite A, B in IN. discriminate.
Qed.
(** days before the first or after the last day of the master record stop the whole call; a day without any master
    value in between is treated like a day with total zero *)
Theorem C21_days_without_master e d0 amounts (master : series xr) uniform t0 t1 :
  amounts <> [] -> has_iteritems e = true -> StronglySorted Z.lt (map fst master) ->
  hd_error (map fst master) = Some t0 -> last (map fst master) 0 = t1 ->
  let call := disagg_prec e (DSeries (daily d0 amounts)) MMaster None master uniform 0 (fun _ => Fin 0) 0 in
  ((exists i, (i < length amounts)%nat /\ (d0 + Z.of_nat i < t0 / us_day \/ t1 / us_day < d0 + Z.of_nat i)) -> call = Err KeyError) /\
  ((forall i, (i < length amounts)%nat -> t0 / us_day <= d0 + Z.of_nat i <= t1 / us_day) ->
   exists out, call = Ok (Some out) /\ map fst out = hours_index d0 (length amounts) /\
     forall i r, nth_error amounts i = Some (Fin r) -> values_on (d0 + Z.of_nat i) master = [] ->
       values_on (d0 + Z.of_nat i) out = repeat (Fin (if uniform then r / 24 else 0)%R) 24).
Proof.
  intros NE HI SS H0 H1 call. unfold call, disagg_prec, precip_master_station, index. rewrite daily_fst.
  assert (H : hourly_index e (daily_index d0 (length amounts)) = Ok (hours_index d0 (length amounts))).
  { destruct amounts as [|x l]; [congruence|]. unfold hourly_index. cbn [length]. apply hourly_index_daily. }
  rewrite H. cbn [bind]. rewrite HI.
  assert (DT : map date_of (map fst (daily d0 amounts)) = map (fun i => d0 + Z.of_nat i) (seq 0 (length amounts))).
  { rewrite daily_fst. unfold daily_index, grid. rewrite map_map. apply map_ext. intro i.
    unfold date_of. replace (d0 * us_day + Z.of_nat i * us_day) with ((d0 + Z.of_nat i) * us_day) by lia. apply Z.div_mul. unfold us_day. lia. }
  destruct (days_in_range master uniform t0 t1 (daily d0 amounts) SS H0 H1) with (out := map (fun t => (t, n_nan : xr)) (hours_index d0 (length amounts))) as [DE DO].
  { rewrite DT. apply FinFun.Injective_map_NoDup; [|apply seq_NoDup]. intros x y. lia. }
  split.
  - intros (i & Hi & X). rewrite DE; [reflexivity|]. apply Exists_exists.
    assert (I : In (d0 + Z.of_nat i) (map date_of (map fst (daily d0 amounts)))) by (rewrite DT; apply in_map_iff; exists i; split; [reflexivity|apply in_seq; lia]).
    apply in_map_iff in I as (t & E & I). exists t. split; [exact I|]. rewrite E. exact X.
  - intro CV. destruct DO as (out & E & I & D & _).
    { apply Forall_forall. intros t Ht. apply (in_map date_of) in Ht. rewrite DT in Ht. apply in_map_iff in Ht as (i & <- & Hi). apply in_seq in Hi. apply CV. lia. }
    exists out. rewrite E. split; [reflexivity|]. split; [rewrite I, map_map; cbn [fst]; apply map_id|].
    intros i r Hi V. assert (Hi' : (i < length amounts)%nat) by (apply nth_error_Some; congruence).
    assert (Hin : In ((d0 + Z.of_nat i) * us_day, Fin r) (daily d0 amounts)).
    { apply nth_error_In with (n := i). rewrite daily_nth_error, Hi. reflexivity. }
    specialize (D _ _ Hin). unfold date_of in D. rewrite Z.div_mul in D by (unfold us_day; lia). rewrite D, hours_rows_on by exact Hi'.
    assert (U : MasterProofs.usable (master_total master (d0 + Z.of_nat i)) = false).
    { unfold master_total. rewrite V. rewrite (nansum_numeric []) by constructor. change (Rsum (fins [])) with 0%R. unfold MasterProofs.usable. cbn [n_isnan Num_xr xisnan].
      rewrite n0_xr, xeqb_Fin. destruct (Reqb_spec 0 0) as [_|X]; [reflexivity|exfalso; apply X; reflexivity]. }
    assert (MV : forall u, master_value master uniform (d0 + Z.of_nat i) (Fin r) u = Fin (if uniform then r / 24 else 0)%R).
    { intro u. unfold master_value. rewrite U. destruct uniform; [|reflexivity]. rewrite n1_xr. change (n_ofZ 24) with (Fin 24). rewrite xdiv_Fin by lra. rewrite xmul_Fin. f_equal. lra. }
    rewrite (map_ext _ _ MV). unfold grid. rewrite map_map. reflexivity.
Qed.
Print Assumptions C21_days_without_master.
(** a master record of the days 0 and 2: day 1 lies in between, day 3 after it *)
Example C21_days_met : let master := [(0, Fin 1); (us_hour, Fin 3); (2 * us_day, Fin 2)] in
  StronglySorted Z.lt (map fst master) /\ hd_error (map fst master) = Some 0 /\ last (map fst master) 0 / us_day = 2 /\ values_on 1 master = [].
Proof. cbv zeta. repeat split; try reflexivity. repeat constructor. Qed.

(** ** C30 *)
Lemma nan_scaled (a b : xr) : ((NaN - a) / b)%num = NaN.
Proof. reflexivity. Qed.
Lemma course_shape (s : series xr) norm :
  mean_course s norm = map (fun m => (m, if norm then normalise (column s m) else column s m)) (months_of s).
Proof. unfold mean_course, months_of, column, hours_of. cbv zeta. reflexivity. Qed.
Lemma column_hours (s : series xr) m : map fst (column s m) = hours_of s.
Proof. unfold column. rewrite map_map. cbn [fst]. apply map_id. Qed.
Lemma normalise_hours (c : list (Z * xr)) : map fst (normalise c) = map fst c.
Proof. unfold normalise. generalize (nanmin (map snd c)) (nanmax (map snd c)). intros lo hi. rewrite map_map. reflexivity. Qed.
Lemma normalise_nan (c : list (Z * xr)) h v : (forall w, In (h, w) c -> w = NaN) -> In (h, v) (normalise c) -> v = NaN.
Proof.
  unfold normalise. generalize (nanmin (map snd c)) (nanmax (map snd c)). intros lo hi H I. apply in_map_iff in I as ((h', w) & X & I). cbn [fst snd] in X.
  apply pair_equal_spec in X as [-> <-]. rewrite (H w I). apply nan_scaled.
Qed.
Lemma in_graph (F : Z -> xr) l h v : In (h, v) (map (fun h => (h, F h)) l) -> v = F h.
Proof. intro I. apply in_map_iff in I as (k & X & _). apply pair_equal_spec in X as [-> <-]. reflexivity. Qed.
Lemma column_shape (s : series xr) m : column s m = map (fun h => (h, month_hour_mean s m h)) (hours_of s).
Proof. reflexivity. Qed.
Lemma column_nan (s : series xr) m h v : numeric (map snd s) -> month_hour_values s m h = [] -> In (h, v) (column s m) -> v = NaN.
Proof.
  intros NU V I. rewrite column_shape in I. rewrite (in_graph (month_hour_mean s m) (hours_of s) h v I). apply mhm_none; assumption.
Qed.
(** the table has exactly the months and the hours that occur in the record, in ascending order; an hour without values in a
    month is missing there *)
Theorem C30_rows (s : series xr) norm :
  StronglySorted Z.lt (map fst (mean_course s norm)) /\
  (forall m, In m (map fst (mean_course s norm)) <-> exists t, In t (map fst s) /\ month_of t = m) /\
  (forall m col, In (m, col) (mean_course s norm) ->
     StronglySorted Z.lt (map fst col) /\
     (forall h, In h (map fst col) <-> exists t, In t (map fst s) /\ hour_of t = h) /\
     (numeric (map snd s) -> forall h v, In (h, v) col -> month_hour_values s m h = [] -> v = NaN)).
Proof.
  assert (SF : forall f a n, StronglySorted Z.lt (filter f (map Z.of_nat (seq a n)))).
  { intros f a n. revert a. induction n as [|n IH]; intro a; [constructor|]. cbn [seq map filter].
    destruct (f (Z.of_nat a)); [|apply IH]. constructor; [apply IH|]. apply Forall_forall. intros x Hx. apply filter_In in Hx as [Hx _].
    apply in_map_iff in Hx as (k & <- & Hk). apply in_seq in Hk. lia. }
  assert (M : forall m, In m (months_of s) <-> exists t, In t (map fst s) /\ month_of t = m).
  { intro m. unfold months_of. rewrite filter_In, existsb_exists. split.
    - intros (_ & t & I & Q). apply Z.eqb_eq in Q. eauto.
    - intros (t & I & <-). split; [|exists t; split; [exact I|apply Z.eqb_refl]]. unfold month_of. pose proof (month_range (date_of t)).
      apply in_map_iff. exists (Z.to_nat (month_of_day (date_of t))). split; [lia|]. apply in_seq. lia. }
  assert (HH : forall h, In h (hours_of s) <-> exists t, In t (map fst s) /\ hour_of t = h).
  { intro h. unfold hours_of. rewrite filter_In, existsb_exists. split.
    - intros (_ & t & I & Q). apply Z.eqb_eq in Q. eauto.
    - intros (t & I & <-). split; [|exists t; split; [exact I|apply Z.eqb_refl]]. pose proof (hour_range t).
      apply in_map_iff. exists (Z.to_nat (hour_of t)). split; [lia|]. apply in_seq. lia. }
  assert (MF : map fst (mean_course s norm) = months_of s) by (rewrite course_shape, map_map; cbn [fst]; apply map_id).
  rewrite MF. split; [apply SF|]. split; [exact M|].
  intros m col I. rewrite course_shape in I. apply in_map_iff in I as (m' & X & I). apply pair_equal_spec in X as [-> <-].
  assert (K : map fst (if norm then normalise (column s m) else column s m) = hours_of s) by (destruct norm; rewrite ?normalise_hours; apply column_hours).
  rewrite K. split; [apply SF|]. split; [exact HH|]. intros NU h v Iv V. destruct norm.
  - eapply normalise_nan; [|exact Iv]. intros w Iw. exact (column_nan s m h w NU V Iw).
  - exact (column_nan s m h v NU V Iv).
Qed.
Print Assumptions C30_rows.
(** the first of January 1970 at 00:00 and 01:00, the first of February at 01:00 *)
Example C30_rows_met : let s := [(0, Fin 1); (us_hour, Fin 2); (31 * us_day + us_hour, Fin 3)] in
  numeric (map snd s) /\ month_hour_values s 2 0 = [] /\ In (0, NaN) (column s 2) /\ exists col, In (2, col) (mean_course s false).
Proof.
  cbv zeta. set (s := [(0, Fin 1); (us_hour, Fin 2); (31 * us_day + us_hour, Fin 3)]).
  assert (NU : numeric (map snd s)) by repeat constructor. assert (V : month_hour_values s 2 0 = []) by reflexivity.
  split; [exact NU|]. split; [exact V|]. split.
  - rewrite column_shape. apply in_map_iff. exists 0. split; [rewrite mhm_none by assumption; reflexivity|].
    unfold hours_of. apply filter_In. split; [left; reflexivity|reflexivity].
  - destruct (C30_rows s false) as (_ & M & _). assert (I : In 2 (map fst (mean_course s false))) by (apply M; exists (31 * us_day + us_hour); split; [cbn; tauto|reflexivity]).
    apply in_map_iff in I as ((m & col) & X & I). cbn in X. subst m. exists col. exact I.
Qed.

(** ** C59 *)
From Verif Require Import BunchModel SpecBunch PropsBunch.
(** the public methods of dict *)
Definition dict_methods : list string :=
  ["clear"; "copy"; "fromkeys"; "get"; "items"; "keys"; "pop"; "popitem"; "setdefault"; "update"; "values"]%string.
Definition public (k : string) : Prop := match k with String c _ => c <> "_"%char | EmptyString => True end.
(** a public name that is no key: a method of dict, or AttributeError *)
Theorem C59_type_names h kw h0 a ops k : bunch_new h kw = Ok (h0, a) -> Forall keeps_dict ops -> public k ->
  get_item (run h0 ops) a k = Err KeyError ->
  get_attr (run h0 ops) a k = if in_dec string_dec k dict_methods then Ok AType else Err AttributeError.
Proof.
  intros B K P G. assert (R : reserved k = false).
  { unfold reserved. destruct (String.eqb_spec k "__dict__") as [->|]; [exfalso; apply P; reflexivity|].
    destruct (String.eqb_spec k "__class__") as [->|]; [exfalso; apply P; reflexivity|].
    destruct (String.eqb_spec k "__weakref__") as [->|]; [exfalso; apply P; reflexivity|]. reflexivity. }
  unfold bunch_new in B. destruct (existsb _ kw); [discriminate|]. injection B as <- <-.
  assert (H : nth_error (h ++ [OBunch kw (List.length h)]) (List.length h) = Some (OBunch kw (List.length h))).
  { rewrite nth_error_app2, Nat.sub_diag by lia. reflexivity. }
  destruct (run_kind ops _ _ _ K H) as (x & H1 & S1). destruct x as [|kv|kv s]; try contradiction. cbn in S1. subst s.
  destruct (self_slot _ _ _ k H1 R) as [E1 E2]. rewrite E1 in G. rewrite E2. destruct (assoc k kv); [discriminate|].
  assert (T : on_type k = if in_dec string_dec k dict_methods then true else false); [|rewrite T; destruct (in_dec _ _ _); reflexivity].
  destruct (in_dec string_dec k dict_methods) as [I|N].
  - cbn in I. repeat (destruct I as [<-|I]; [reflexivity|]). destruct I.
  - apply not_true_iff_false. intro T. unfold on_type in T. apply existsb_exists in T as (y & I & Q). apply String.eqb_eq in Q. subst y.
    cbn in I. repeat (destruct I as [<-|I]; [first [exact (P eq_refl) | apply N; cbn; tauto]|]). destruct I.
Qed.
Print Assumptions C59_type_names.
Example C59_type_names_met : exists h a, bunch_new [] [("lat"%string, VAtom 47)] = Ok (h, a) /\ public "pop" /\ public "lon" /\
  get_item h a "pop" = Err KeyError /\ get_item h a "lon" = Err KeyError.
Proof. do 2 eexists. split; [reflexivity|]. repeat split; discriminate. Qed.

(** ** C54 *)
From Verif Require Import InterpProofs StationModel SpecStation StationDaily PropsStation.
(** which exception a refused assignment raises: the checks of type, index, resolution and order come first, then the two
    errors of filling in the missing days, then the check of the temperatures *)
Theorem C54_exception e st v : match v with VFrame f => SpecStation.frame_ok f | VOther => True end -> refused v ->
  match v with
  | VOther => set_daily e st v = (st, Some AssertionError)
  | VFrame f =>
      let idx := f_index (p_data f) in
      let checked := p_datetime f = true /\ (forall t, In t idx -> t mod us_day = 0) /\
                     (forall i a b, nth_error idx i = Some a -> nth_error idx (S i) = Some b -> a <= b) in
      (~ checked -> set_daily e st v = (st, Some AssertionError)) /\
      (checked -> p_freq f = false -> idx = [] -> set_daily e st v = (st, Some IndexError)) /\
      (checked -> p_freq f = false -> ~ NoDup idx -> set_daily e st v = (st, Some ValueError)) /\
      (checked -> p_freq f = true \/ (idx <> [] /\ NoDup idx) -> set_daily e st v = (st, Some AssertionError))
  end.
Proof.
  destruct v as [f|]; [|reflexivity]. intros FO RF idx checked.
  assert (CH : checked -> p_datetime f = true /\ day_resolution idx = true /\ is_increasing idx = true).
  { intros (A & B & C). split; [exact A|]. split.
    - unfold day_resolution. apply forallb_forall. intros t I. apply Z.eqb_eq, B, I.
    - clear - C. induction idx as [|x [|y l] IH]; [reflexivity|reflexivity|]. cbn [is_increasing]. apply andb_true_iff. split.
      + apply Z.leb_le. exact (C O x y eq_refl eq_refl).
      + apply IH. intros i a b. exact (C (S i) a b). }
  assert (HC : p_datetime f = true -> day_resolution idx = true -> is_increasing idx = true -> checked).
  { intros A B C. split; [exact A|]. split.
    - intros t I. unfold day_resolution in B. rewrite forallb_forall in B. apply Z.eqb_eq, B, I.
    - intros i a b X Y. exact (increasing_adjacent _ _ _ _ C X Y). }
  split; [|split; [|split]].
  - intro N. unfold set_daily. fold idx. destruct (p_datetime f) eqn:A; [|reflexivity]. cbn [negb]. destruct (day_resolution idx) eqn:B; [|reflexivity].
    cbn [negb]. destruct (is_increasing idx) eqn:C; [|reflexivity]. exfalso. apply N, HC; reflexivity.
  - intros K PF NIL. destruct (CH K) as (A & B & C). unfold set_daily. fold idx. rewrite A, B, C. cbn [negb]. unfold fill_days. fold idx. rewrite PF, NIL. reflexivity.
  - intros K PF DUP. destruct (CH K) as (A & B & C). unfold set_daily. fold idx. rewrite A, B, C. cbn [negb]. unfold fill_days. fold idx. rewrite PF.
    destruct idx as [|t0 l] eqn:E; [exfalso; apply DUP; constructor|]. unfold frame_reindex. fold idx. rewrite E.
    destruct (has_dup (t0 :: l)) eqn:HD; [reflexivity|]. exfalso. apply DUP. apply has_dup_NoDup, HD.
  - intros K OKD. destruct (CH K) as (A & B & C).
    assert (F : exists df, fill_days f = Ok df).
    { destruct (p_freq f) eqn:PF; [exists (p_data f); unfold fill_days; rewrite PF; reflexivity|].
      destruct OKD as [X|[X Y]]; [discriminate|]. pose proof (fill_none f PF B C) as Z0. destruct (fill_days f) as [df|x]; [eauto|].
      fold idx in Z0. destruct Z0; contradiction. }
    destruct F as (df & F). destruct (refused_unchanged e (with_daily st None) (VFrame f) FO RF) as [U _]. revert U. unfold set_daily. fold idx. rewrite A, B, C, F. cbn [negb].
    destruct (existsb (too_cold df) ["tmin"; "tmax"; "tmean"]%string) eqn:TC; [reflexivity|]. intro U. exfalso. apply (f_equal s_daily) in U. revert U.
    destruct (hourly_index e (f_index df)) as [hs|x]; [|intro Q; discriminate Q]. unfold calc_sun_times. cbn [with_disagg with_daily s_daily s_lon s_lat s_tz].
    destruct (s_tz st) as [tz|]; [|intro Q; discriminate Q]. destruct (s_lon st); [destruct (s_lat st)|]; intro Q; discriminate Q.
Qed.
Print Assumptions C54_exception.
(** two rows for the same day, no frequency *)
Example C54_exception_met : exists f, refused (VFrame f) /\ SpecStation.frame_ok f /\ p_freq f = false /\ f_index (p_data f) = [0; 0] /\
  set_daily modern ex_station (VFrame f) = (ex_station, Some ValueError).
Proof.
  exists {| p_datetime := true; p_freq := false; p_data := Build_dframe [0; 0] [("tmin"%string, [Fin 280; Fin 281])] |}.
  assert (ND : ~ NoDup [0; 0]) by (intro H; inversion H as [|? ? N _]; apply N; left; reflexivity).
  split; [apply RDuplicates; [reflexivity|exact ND]|]. split; [|split; [reflexivity|split; reflexivity]].
  split; [|discriminate]. intros c v [H|[]]. injection H as <- <-. reflexivity.
Qed.
