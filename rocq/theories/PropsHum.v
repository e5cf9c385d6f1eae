(** Properties C46-C49, C76, C77, C79: humidity. *)
From Coq Require Import String ZArith List Bool Lia Reals Lra Floats.
From Verif Require Import Py Num Cal Series UtilModel UtilModel2 Trans Frame TempModel RadModel HumModel SpecBase SpecUtil SpecTemp SpecRad SpecHum TimeProofs IndexProofs
  DaysProofs ThermoProofs TempProofs TempCourse RadProofs RadStats HumProofs.
Import ListNotations.
Open Scope string_scope.
Open Scope Z_scope.
Open Scope list_scope.

(** ** C46 *)
Theorem C46_between_0_and_100 e d method temp a0 a1 kr mhp keep out :
  disaggregate_humidity e d method temp a0 a1 kr mhp keep = Ok out ->
  Forall (fun p => snd p = NaN \/ exists r, snd p = Fin r /\ (0 <= r <= 100)%R) out.
Proof.
  unfold disaggregate_humidity, disaggregate_humidity_gen. destruct (negb _); [discriminate|].
  destruct (raw_humidity _ _ _ _ _ _ _ _ _ _) as [h|]; [|discriminate]. cbn [bind].
  destruct (if keep then _ else _) as [h'|]; [|discriminate]. cbn [bind]. intro E. injection E as <-.
  apply Forall_forall. intros p Hp. apply in_map_iff in Hp as (q & <- & _). apply clip1_xr.
Qed.
Print Assumptions C46_between_0_and_100.
(** the same for binary64, whatever saturation pressure and sine deliver *)
Theorem C46_between_0_and_100_binary64 (saturation : float -> float) (wave : Z -> Z -> float) e d method temp a0 a1 kr mhp keep out :
  disaggregate_humidity_gen saturation wave e d method temp a0 a1 kr mhp keep = Ok out ->
  Forall (fun p => (snd p =? snd p)%float = false \/ (0 <=? snd p)%float = true /\ (snd p <=? 100)%float = true) out.
Proof.
  unfold disaggregate_humidity_gen. destruct (negb _); [discriminate|].
  destruct (raw_humidity _ _ _ _ _ _ _ _ _ _) as [h|]; [|discriminate]. cbn [bind].
  destruct (if keep then _ else _) as [h'|]; [|discriminate]. cbn [bind]. intro E. injection E as <-.
  apply Forall_forall. intros p Hp. apply in_map_iff in Hp as (q & <- & _). cbn [snd].
  destruct (clip1_float (snd q)) as [K|[K1 K2]]; [left|right; split; [exact K1|exact K2]].
  apply negb_true_iff. exact K.
Qed.
Print Assumptions C46_between_0_and_100_binary64.

(** ** reading the result at hour h of day i *)
Lemma value_at (g : Z -> xr) d0 n i h : (i < n)%nat -> (h < 24)%nat ->
  nth h (values_on (d0 + Z.of_nat i) (map (fun t => (t, g t)) (hours_index d0 n))) NaN = g (stamp (d0 + Z.of_nat i) h).
Proof.
  intros Hi Hh. rewrite (values_on_map_hours g d0 n i Hi). rewrite (nth_indep _ NaN (g (stamp (d0 + Z.of_nat i) 0))) by (rewrite map_length, seq_length; exact Hh).
  rewrite (map_nth (fun h => g (stamp (d0 + Z.of_nat i) h))), seq_nth by exact Hh. reflexivity.
Qed.
Lemma nth_map_in {A B} (f : A -> B) l i a b : (i < length l)%nat -> nth i (map f l) b = f (nth i l a).
Proof. intro H. rewrite (nth_indep _ b (f a)) by (rewrite map_length; exact H). apply map_nth. Qed.
Lemma clip_series (g : Z -> xr) l :
  map (fun p => (fst p, clip1 n0 (n_ofZ 100) (snd p))) (map (fun t => (t, g t)) l) = map (fun t => (t, clip1 n0 (n_ofZ 100) (g t))) l.
Proof. rewrite map_map. reflexivity. Qed.
Lemma fst_series {A} (g : Z -> A) l : map fst (map (fun t => (t, g t)) l) = l.
Proof. rewrite map_map. apply map_id. Qed.
Lemma clip1_limited x : clip1 n0 (n_ofZ 100) x = limited_x x.
Proof.
  unfold clip1. rewrite n0_xr, nofZ_xr. destruct x as [r| | |]; try reflexivity. rewrite !xltb_Fin. cbn [limited_x]. unfold limited, Rmin, Rmax.
  destruct (Rltb_spec r 0), (Rltb_spec 100 r); destruct (Rle_dec 0 r); destruct (Rle_dec 100 _); f_equal; lra.
Qed.
Lemma limited_id r : (0 <= r <= 100)%R -> limited r = r.
Proof. intro H. unfold limited, Rmin, Rmax. destruct (Rle_dec 0 r); destruct (Rle_dec 100 _); lra. Qed.
Lemma limited_high r : (100 <= r)%R -> limited r = 100%R.
Proof. intro H. unfold limited, Rmin, Rmax. destruct (Rle_dec 0 r); destruct (Rle_dec 100 _); lra. Qed.

(** ** C47 *)
Theorem C47_min_max e d d0 n hmin hmax tmin tmax f a0 a1 kr mhp :
  day_frame d d0 n -> has_column d "hum_min" hmin -> has_column d "hum_max" hmax -> has_column d "tmin" tmin -> has_column d "tmax" tmax ->
  exists out, disaggregate_humidity e d "min_max" (Some (map (fun t => (t, f t)) (hours_index d0 n))) a0 a1 kr mhp false = Ok out /\
    map fst out = hours_index d0 n /\
    forall i lo hi a b, (i < n)%nat -> nth i tmin NaN = Fin lo -> nth i tmax NaN = Fin hi -> nth i hmin NaN = Fin a -> nth i hmax NaN = Fin b ->
      (lo < hi)%R -> (0 <= a <= b)%R -> (b <= 100)%R ->
      let temp h := f (stamp (d0 + Z.of_nat i) h) in
      let hum h := nth h (values_on (d0 + Z.of_nat i) out) NaN in
      (forall h, (h < 24)%nat -> temp h = Fin lo -> hum h = Fin b) /\
      (forall h, (h < 24)%nat -> temp h = Fin hi -> hum h = Fin a) /\
      (forall h T, (h < 24)%nat -> temp h = Fin T -> (lo <= T <= hi)%R -> exists v, hum h = Fin v /\ (a <= v <= b)%R /\ ((hi - lo) * (b - v) = (T - lo) * (b - a))%R) /\
      (forall h h' T T' v v', (h < 24)%nat -> (h' < 24)%nat -> temp h = Fin T -> temp h' = Fin T' -> (lo <= T <= T')%R -> (T' <= hi)%R ->
         hum h = Fin v -> hum h' = Fin v' -> (v' <= v)%R /\ (T < T' -> a < b -> v' < v)%R).
Proof.
  intros F C1 C2 C3 C4. eexists. split.
  { unfold disaggregate_humidity, disaggregate_humidity_gen. cbn [existsb String.eqb Ascii.eqb Bool.eqb orb negb].
    rewrite (raw_min_max e d d0 n hmin hmax tmin tmax f a0 a1 kr mhp F C1 C2 C3 C4). cbn [bind]. rewrite clip_series. reflexivity. }
  split; [apply fst_series|]. intros i lo hi a b Hi E1 E2 E3 E4 HT HA HB temp hum.
  assert (V : forall h T, (h < 24)%nat -> temp h = Fin T -> (lo <= T <= hi)%R ->
     exists v, hum h = Fin v /\ (a <= v <= b)%R /\ ((hi - lo) * (b - v) = (T - lo) * (b - a))%R).
  { intros h T Hh ET HTT. unfold hum. rewrite value_at by assumption. rewrite !at_day_stamp by exact Hh. rewrite E1, E2, E3, E4. unfold temp in ET. rewrite ET.
    rewrite !xsub_Fin, xdiv_Fin by lra. rewrite xmul_Fin, xadd_Fin, clip1_limited. cbn [limited_x].
    set (q := ((T - lo) / (hi - lo))%R). assert (HQ : (0 <= q <= 1)%R).
    { unfold q. split; [apply Rmult_le_pos; [lra|]; left; apply Rinv_0_lt_compat; lra|].
      apply Rmult_le_reg_r with (hi - lo)%R; [lra|]. unfold Rdiv. rewrite Rmult_assoc, Rinv_l by lra. lra. }
    assert (EQ : (q * (hi - lo) = T - lo)%R) by (unfold q; field; lra).
    exists (b + q * (a - b))%R. assert (B : (a <= b + q * (a - b) <= b)%R) by nra.
    rewrite limited_id by lra. split; [reflexivity|]. split; [exact B|]. replace ((hi - lo) * (b - (b + q * (a - b))))%R with ((q * (hi - lo)) * (b - a))%R by ring. rewrite EQ. reflexivity. }
  split; [|split; [|split]].
  - intros h Hh ET. destruct (V h lo Hh ET) as (v & EV & _ & K); [lra|]. rewrite EV. f_equal. nra.
  - intros h Hh ET. destruct (V h hi Hh ET) as (v & EV & _ & K); [lra|]. rewrite EV. f_equal. nra.
  - exact V.
  - intros h h' T T' v v' Hh Hh' ET ET' H1 H2 EV EV'. destruct (V h T Hh ET) as (w & EW & _ & K); [lra|]. destruct (V h' T' Hh' ET') as (w' & EW' & _ & K'); [lra|].
    assert (w = v) by congruence. assert (w' = v') by congruence. subst w w'. split; [nra|]. intros; nra.
Qed.
Print Assumptions C47_min_max.
(** deviation: on a day with equal minimum and maximum temperature, hours at that temperature are missing *)
Theorem C47_isothermal_day_missing e d d0 n hmin hmax tmin tmax f a0 a1 kr mhp out i h T :
  day_frame d d0 n -> has_column d "hum_min" hmin -> has_column d "hum_max" hmax -> has_column d "tmin" tmin -> has_column d "tmax" tmax ->
  disaggregate_humidity e d "min_max" (Some (map (fun t => (t, f t)) (hours_index d0 n))) a0 a1 kr mhp false = Ok out ->
  (i < n)%nat -> (h < 24)%nat -> nth i tmin NaN = Fin T -> nth i tmax NaN = Fin T -> f (stamp (d0 + Z.of_nat i) h) = Fin T ->
  nth h (values_on (d0 + Z.of_nat i) out) NaN = NaN.
Proof.
  intros F C1 C2 C3 C4 E Hi Hh E1 E2 ET. unfold disaggregate_humidity, disaggregate_humidity_gen in E. cbn [existsb String.eqb Ascii.eqb Bool.eqb orb negb] in E.
  rewrite (raw_min_max e d d0 n hmin hmax tmin tmax f a0 a1 kr mhp F C1 C2 C3 C4) in E. cbn [bind] in E. rewrite clip_series in E.
  match type of E with Ok ?o = _ => assert (EO : o = out) by congruence end. rewrite <- EO. rewrite value_at by assumption. rewrite !at_day_stamp by exact Hh. rewrite E1, E2, ET.
  rewrite !xsub_Fin. replace (T - T)%R with 0%R by ring.
  assert (D : (Fin 0 / Fin 0)%num = NaN) by (cbn; destruct (Reqb_spec 0 0); [reflexivity|lra]).
  rewrite D. rewrite clip1_limited. destruct (nth i hmin NaN), (nth i hmax NaN); reflexivity.
Qed.
Print Assumptions C47_isothermal_day_missing.

(** ** C48 *)
Lemma minimal_value m T : (0.53 < m)%R -> (0.53 < T)%R ->
  clip1 n0 (n_ofZ 100) (n_ofZ 100 * saturation_x (n0 + n1 * Fin m) / saturation_x (Fin T))%num = Fin (Rmin 100 (100 * svp m / svp T)).
Proof.
  intros Hm HT. rewrite n0_xr at 2. rewrite n1_xr, xmul_Fin, xadd_Fin. replace (0 + 1 * m)%R with m by ring.
  rewrite !saturation_ok, (nofZ_xr 100), xmul_Fin by assumption. pose proof (svp_pos T). pose proof (svp_pos m). rewrite xdiv_Fin by lra. rewrite <- (nofZ_xr 100), clip1_limited. cbn [limited_x].
  f_equal. unfold limited. f_equal. apply Rmax_right. apply Rmult_le_pos; [lra|left; apply Rinv_0_lt_compat; lra].
Qed.
Theorem C48_minimal e d d0 n tmin f a0 a1 kr mhp :
  day_frame d d0 n -> has_column d "tmin" tmin ->
  exists out, disaggregate_humidity e d "minimal" (Some (map (fun t => (t, f t)) (hours_index d0 n))) a0 a1 kr mhp false = Ok out /\
    map fst out = hours_index d0 n /\
    forall i h m T, (i < n)%nat -> (h < 24)%nat -> nth i tmin NaN = Fin m -> f (stamp (d0 + Z.of_nat i) h) = Fin T -> (0.53 < m)%R -> (0.53 < T)%R ->
      let hum := nth h (values_on (d0 + Z.of_nat i) out) NaN in
      (T = m -> hum = Fin 100) /\ (T < m -> hum = Fin 100)%R /\
      (m < T -> exists v, hum = Fin v /\ 0 < v < 100 /\ v = 100 * svp m / svp T)%R.
Proof.
  intros F C. destruct (column_daily d d0 n _ _ F C) as [_ L]. eexists. split.
  { unfold disaggregate_humidity, disaggregate_humidity_gen. cbn [existsb String.eqb Ascii.eqb Bool.eqb orb negb].
    rewrite (raw_minimal e d d0 n tmin f a0 a1 kr mhp F C). cbn [bind]. rewrite clip_series. reflexivity. }
  split; [apply fst_series|]. intros i h m T Hi Hh E1 E2 Hm HT hum. unfold hum. rewrite value_at by assumption. rewrite at_day_stamp by exact Hh.
  unfold dew. rewrite (nth_map_in _ tmin i NaN NaN) by lia. rewrite E1, E2, minimal_value by assumption.
  pose proof (svp_pos T) as P. pose proof (svp_pos m) as Pm.
  assert (Q : forall x, (100 * svp m / svp T < x <-> 100 * svp m < x * svp T)%R).
  { intro x. assert (100 * svp m / svp T * svp T = 100 * svp m)%R by (field; lra). split; intro; nra. }
  split; [|split].
  - intros ->. replace (100 * svp m / svp m)%R with 100%R by (field; lra). f_equal. apply Rmin_left. lra.
  - intro H. pose proof (svp_incr T m HT H). f_equal. apply Rmin_left. destruct (Rle_dec 100 (100 * svp m / svp T)) as [K|K]; [exact K|]. apply Rnot_le_lt, Q in K. lra.
  - intro H. pose proof (svp_incr m T Hm H). assert (K : (100 * svp m / svp T < 100)%R) by (apply Q; lra). exists (100 * svp m / svp T)%R. rewrite Rmin_right by lra.
    split; [reflexivity|]. split; [|reflexivity]. split; [|exact K]. apply Rmult_lt_0_compat; [apply Rmult_lt_0_compat; lra|]. apply Rinv_0_lt_compat. lra.
Qed.
Print Assumptions C48_minimal.

(** ** C49 *)
Lemma series_as_map (s : series xr) l : map fst s = l -> NoDup l -> s = map (fun t => (t, match lookup t s with Some v => v | None => NaN end)) l.
Proof.
  revert l. induction s as [|(t, v) s IH]; intros l E ND; cbn [map fst] in E; subst l; [reflexivity|]. cbn [map lookup]. rewrite Z.eqb_refl. f_equal.
  inversion ND as [|? ? NI ND']; subst. rewrite (IH _ eq_refl ND') at 1. apply map_ext_in. intros u Hu. f_equal.
  destruct (Z.eqb_spec t u) as [->|NE]; [contradiction|reflexivity].
Qed.
Lemma hours_nodup d0 n : NoDup (hours_index d0 n).
Proof.
  unfold hours_index, grid. apply FinFun.Injective_map_NoDup; [|apply seq_NoDup]. intros x y E. unfold us_hour in E. lia.
Qed.
Lemma fold_nonfin (l : list xr) x : (forall r, x <> Fin r) -> forall r, fold_left n_add l x <> Fin r.
Proof.
  revert x. induction l as [|y l IH]; intros x H r; [apply H|]. cbn [fold_left]. apply IH. intros q. destruct x; [exfalso; eapply H; reflexivity|destruct y; discriminate..].
Qed.
Lemma fold_inf (l : list xr) x : In PInf l \/ In NInf l -> forall r, fold_left n_add l x <> Fin r.
Proof.
  revert x. induction l as [|y l IH]; intros x H; [destruct H as [[]|[]]|]. cbn [fold_left].
  destruct H as [[->|H]|[->|H]]; [|apply IH; left; exact H| |apply IH; right; exact H]; apply fold_nonfin; intros r; destruct x; discriminate.
Qed.
Lemma nanmean_inf l : In PInf l \/ In NInf l -> forall r, nanmean l <> Fin r.
Proof.
  intros H r. unfold nanmean. destruct (valid l) as [|a v] eqn:E; [discriminate|].
  assert (HV : In PInf (a :: v) \/ In NInf (a :: v)).
  { rewrite <- E. unfold valid. destruct H as [H|H]; [left|right]; apply filter_In; (split; [exact H|reflexivity]). }
  assert (K : forall q, nansum l <> Fin q). { unfold nansum. rewrite E. apply fold_inf, HV. }
  rewrite nofZ_xr. set (k := IZR _). destruct (nansum l) as [q| | |] eqn:EN; [exfalso; eapply K; reflexivity| | |];
    cbn; unfold xsgn; try discriminate; destruct (Rleb _ _); discriminate.
Qed.
Lemma not_numeric l : ~ numeric l -> In PInf l \/ In NInf l.
Proof.
  induction l as [|x l IH]; intro H; [exfalso; apply H; constructor|]. destruct x; [|left; left; reflexivity|right; left; reflexivity|];
    (destruct IH as [K|K]; [intro F; apply H; constructor; [exact I|exact F]|left; right; exact K|right; right; exact K]).
Qed.
Lemma numeric_dec l : numeric l \/ ~ numeric l.
Proof.
  induction l as [|x l [IH|IH]]; [left; constructor| |right; intro H; inversion H; contradiction].
  destruct x; [left|right|right|left]; try (constructor; [exact I|exact IH]); intro H; inversion H as [|? ? K]; contradiction.
Qed.

Lemma fins_shift l b : fins (map (fun x => (x - Fin b)%num) l) = map (fun r => (r - b)%R) (fins l).
Proof.
  induction l as [|x l IH]; [reflexivity|]. cbn [map]. unfold fins in *. cbn [flat_map]. rewrite IH. destruct x; reflexivity.
Qed.
Lemma Rsum_shift l b : Rsum (map (fun r => (r - b)%R) l) = (Rsum l - INR (length l) * b)%R.
Proof.
  induction l as [|x l IH]; [cbn; ring|]. cbn [map]. unfold Rsum in *. cbn [fold_right]. rewrite IH. cbn [length]. rewrite S_INR. ring.
Qed.

Lemma preserve_day e d d0 n hum method temp a0 a1 kr mhp out :
  day_frame d d0 n -> has_column d "hum" hum -> disaggregate_humidity e d method temp a0 a1 kr mhp true = Ok out -> map fst out = hours_index d0 n ->
  exists raw, map fst raw = hours_index d0 n /\
    disaggregate_humidity e d method temp a0 a1 kr mhp false = Ok (map (fun p => (fst p, limited_x (snd p))) raw) /\
    forall i, (i < n)%nat ->
      values_on (d0 + Z.of_nat i) out =
      map (fun x => limited_x (x - (let b := day_bias raw hum d0 i in if n_isnan b then n0 else b))%num) (values_on (d0 + Z.of_nat i) raw).
Proof.
  intros F C E EI. unfold disaggregate_humidity, disaggregate_humidity_gen in *. destruct (negb _); [discriminate|].
  destruct (raw_humidity _ _ _ _ _ _ _ _ _ _) as [raw|]; [|discriminate]. cbn [bind] in *. exists raw.
  destruct (preserve_mean e d raw) as [h'|] eqn:EP; [|discriminate]. cbn [bind] in E.
  match type of E with Ok ?o = _ => assert (EO : o = out) by congruence end. clear E.
  assert (ER : map fst raw = hours_index d0 n).
  { rewrite <- EI, <- EO, map_map. cbn [fst]. unfold preserve_mean in EP. destruct (fcol "hum" d); [|discriminate]. cbn [bind] in EP.
    destruct (distribute_equally _ _ _); [|discriminate]. cbn [bind] in EP. match type of EP with Ok ?o = _ => assert (EH : o = h') by congruence end. rewrite <- EH, map_map. reflexivity. }
  split; [exact ER|]. split; [f_equal; apply map_ext; intros p; f_equal; apply clip1_limited|].
  intros i Hi. set (g := fun t => match lookup t raw with Some v => v | None => NaN end).
  assert (EG : map (fun t => (t, g t)) (hours_index d0 n) = raw) by (symmetry; apply series_as_map; [exact ER|apply hours_nodup]). clearbody g. rewrite <- EG in EP.
  pose proof (preserve_ok e d d0 n hum g F C) as PO. cbv zeta in PO. rewrite PO in EP. clear PO. match type of EP with Ok ?o = _ => assert (EH : o = h') by congruence end. clear EP.
  rewrite EG in EH.
  rewrite <- EO, <- EH, map_map. cbn [fst snd]. rewrite (values_on_map_hours (fun t => clip1 n0 (n_ofZ 100) _) d0 n i Hi).
  assert (EW : values_on (d0 + Z.of_nat i) raw = map (fun h => g (stamp (d0 + Z.of_nat i) h)) (seq 0 24)) by (rewrite <- EG; apply values_on_map_hours, Hi).
  rewrite EW, map_map. apply map_ext_in. intros h Hh. apply in_seq in Hh.
  rewrite at_day_stamp by lia. rewrite (nth_indep _ NaN (day_bias raw hum d0 O)) by (rewrite map_length, seq_length; exact Hi). rewrite (map_nth (day_bias raw hum d0)), seq_nth by exact Hi.
  apply clip1_limited.
Qed.

Lemma limited_inside x r : limited_x x = Fin r -> (0 < r < 100)%R -> x = Fin r.
Proof.
  destruct x as [q| | |]; cbn [limited_x]; intros E H; try discriminate; try (assert (r = 100 \/ r = 0)%R by (injection E as <-; auto); lra).
  assert (EL : limited q = r) by congruence. clear E. unfold limited, Rmin, Rmax in EL. destruct (Rle_dec 0 q); destruct (Rle_dec 100 _); f_equal; lra.
Qed.
Lemma limited_nan x : limited_x x = NaN -> x = NaN.
Proof. destruct x; cbn; congruence. Qed.

(** if the returned values of a day keep clear of 0 and 100, their mean is the observed one *)
Theorem C49_preserved_mean e d d0 n hum method temp a0 a1 kr mhp out i o :
  day_frame d d0 n -> has_column d "hum" hum ->
  disaggregate_humidity e d method temp a0 a1 kr mhp true = Ok out -> map fst out = hours_index d0 n ->
  (i < n)%nat -> nth i hum NaN = Fin o ->
  let day := values_on (d0 + Z.of_nat i) out in
  (forall v, In v day -> v = NaN \/ exists r, v = Fin r /\ (0 < r < 100)%R) -> (exists r, In (Fin r) day) ->
  Rmean (fins day) = o.
Proof.
  intros F C E EI Hi EO day HD (r0 & HR). destruct (preserve_day e d d0 n hum method temp a0 a1 kr mhp out F C E EI) as (raw & ER & _ & EV).
  specialize (EV i Hi). fold day in EV. set (w := values_on (d0 + Z.of_nat i) raw) in *. set (b := day_bias raw hum d0 i) in EV. cbv zeta in EV.
  assert (EB : b = (nanmean w - Fin o)%num) by (unfold b, day_bias; fold w; rewrite EO; reflexivity). clearbody b w day.
  set (B := if n_isnan b then n0 else b) in EV.
  assert (HI : forall x, In x w -> limited_x (x - B)%num = NaN \/ exists r, limited_x (x - B)%num = Fin r /\ (0 < r < 100)%R).
  { intros x Hx. apply HD. rewrite EV. apply in_map_iff. exists x. split; [reflexivity|exact Hx]. }
  rewrite EV in HR. apply in_map_iff in HR as (x0 & EX0 & HX0).
  assert (H0 : (0 < r0 < 100)%R). { destruct (HI x0 HX0) as [K|(r & K & KR)]; rewrite EX0 in K; [discriminate|]. assert (r0 = r) by congruence. subst r. exact KR. }
  apply limited_inside in EX0; [|exact H0].
  assert (ND : numeric w).
  { destruct (numeric_dec w) as [K|K]; [exact K|exfalso]. apply not_numeric in K. pose proof (nanmean_inf w K) as NI.
    destruct (nanmean w) as [q| | |] eqn:EN; [eapply NI; reflexivity| | |]; assert (EBq : B = if n_isnan b then n0 else b) by reflexivity; clearbody B; rewrite EB in EBq; cbn in EBq; subst B; cbn in EX0, HI.
    - destruct x0; discriminate.
    - destruct x0; discriminate.
    - destruct K as [K|K]; destruct (HI _ K) as [Q|(r & Q & QR)]; cbn in Q; try discriminate; assert (r = 100 \/ r = 0)%R by (injection Q as <-; auto); lra. }
  assert (NF : fins w <> []).
  { intro K. assert (x0 = NaN \/ exists r, x0 = Fin r) as [->|(r & ->)]; [|discriminate|].
    - unfold numeric in ND. rewrite Forall_forall in ND. specialize (ND _ HX0). destruct x0; try contradiction; [right; eexists; reflexivity|left; reflexivity].
    - apply fins_In in HX0. rewrite K in HX0. exact HX0. }
  rewrite (nanmean_numeric w ND NF), xsub_Fin in EB. assert (EBB : B = Fin (Rmean (fins w) - o)) by (unfold B; rewrite EB; reflexivity). clearbody B. subst B.
  assert (ED : day = map (fun x => (x - Fin (Rmean (fins w) - o))%num) w).
  { rewrite EV. apply map_ext_in. intros x Hx. destruct (HI x Hx) as [K|(r & K & KR)]; [rewrite K; symmetry; apply limited_nan, K|rewrite K; symmetry; apply limited_inside; assumption]. }
  rewrite ED, fins_shift. unfold Rmean at 1. rewrite map_length, Rsum_shift. unfold Rmean. assert (LN : (0 < INR (length (fins w)))%R) by (apply lt_0_INR; destruct (fins w); [congruence|cbn; lia]).
  field. lra.
Qed.
Print Assumptions C49_preserved_mean.
(** days without an observed mean are returned as without the option *)
Theorem C49_no_observation e d d0 n hum method temp a0 a1 kr mhp out out' i :
  day_frame d d0 n -> has_column d "hum" hum ->
  disaggregate_humidity e d method temp a0 a1 kr mhp true = Ok out -> map fst out = hours_index d0 n ->
  disaggregate_humidity e d method temp a0 a1 kr mhp false = Ok out' ->
  (i < n)%nat -> nth i hum NaN = NaN ->
  values_on (d0 + Z.of_nat i) out = values_on (d0 + Z.of_nat i) out'.
Proof.
  intros F C E EI E' Hi EO. destruct (preserve_day e d d0 n hum method temp a0 a1 kr mhp out F C E EI) as (raw & ER & EF & EV).
  rewrite EF in E'. match type of E' with Ok ?o = _ => assert (EH : o = out') by congruence end. rewrite EV by exact Hi. rewrite <- EH.
  unfold values_on. rewrite map_map. unfold day_bias. rewrite EO. replace (nanmean (values_on (d0 + Z.of_nat i) raw) - NaN)%num with NaN by (destruct (nanmean _); reflexivity). cbn [n_isnan Num_xr xisnan].
  clear. induction raw as [|p l IH]; [reflexivity|]. cbn [map filter fst snd]. destruct (_ =? _); cbn [map snd]; rewrite ?IH; [|reflexivity]. f_equal.
  rewrite n0_xr. destruct (snd p) as [r| | |]; try reflexivity. rewrite xsub_Fin. do 2 f_equal. ring.
Qed.
Print Assumptions C49_no_observation.

(** ** witnesses *)
Definition hum_frame : dframe xr :=
  Build_dframe (daily_index 19000 2)
    [("tmin", [Fin 280; Fin 281]); ("tmax", [Fin 290; Fin 285]); ("hum_min", [Fin 10; Fin 40]); ("hum_max", [Fin 100; Fin 80]);
     ("hum", [Fin 90; Fin 50]); ("precip", [Fin 0; NaN])].
Definition hum_temp (t : Z) : xr := if hour_of t =? 0 then (if date_of t =? 19000 then Fin 280 else Fin 281) else (if date_of t =? 19000 then Fin 290 else Fin 285).
Lemma hum_frame_days : day_frame hum_frame 19000 2.
Proof. split; [discriminate|reflexivity]. Qed.
Lemma hum_frame_col name l : assoc name (f_cols hum_frame) = Some l -> length l = 2%nat -> has_column hum_frame name l.
Proof. intros E L. split; [exact E|exact L]. Qed.

Example C47_example : exists out, disaggregate_humidity modern hum_frame "min_max" (Some (map (fun t => (t, hum_temp t)) (hours_index 19000 2))) None None None None false = Ok out /\
  nth 0 (values_on (19000 + Z.of_nat 0) out) NaN = Fin 100 /\ nth 5 (values_on (19000 + Z.of_nat 1) out) NaN = Fin 40.
Proof.
  destruct (C47_min_max modern hum_frame 19000 2 [Fin 10; Fin 40] [Fin 100; Fin 80] [Fin 280; Fin 281] [Fin 290; Fin 285] hum_temp None None None None
    hum_frame_days) as (out & E & _ & H); [apply hum_frame_col; reflexivity..|]. exists out. split; [exact E|]. split.
  - apply (proj1 (H 0%nat 280%R 290%R 10%R 100%R ltac:(lia) eq_refl eq_refl eq_refl eq_refl ltac:(lra) ltac:(lra) ltac:(lra))); [lia|reflexivity].
  - apply (proj1 (proj2 (H 1%nat 281%R 285%R 40%R 80%R ltac:(lia) eq_refl eq_refl eq_refl eq_refl ltac:(lra) ltac:(lra) ltac:(lra)))); [lia|reflexivity].
Qed.
Example C48_example : exists out, disaggregate_humidity modern hum_frame "minimal" (Some (map (fun t => (t, hum_temp t)) (hours_index 19000 2))) None None None None false = Ok out /\
  nth 0 (values_on (19000 + Z.of_nat 0) out) NaN = Fin 100 /\ exists v, nth 5 (values_on (19000 + Z.of_nat 1) out) NaN = Fin v /\ (0 < v < 100)%R.
Proof.
  destruct (C48_minimal modern hum_frame 19000 2 [Fin 280; Fin 281] hum_temp None None None None hum_frame_days) as (out & E & _ & H); [apply hum_frame_col; reflexivity|].
  exists out. split; [exact E|]. split.
  - apply (proj1 (H 0%nat 0%nat 280%R 280%R ltac:(lia) ltac:(lia) eq_refl eq_refl ltac:(lra) ltac:(lra))). reflexivity.
  - destruct (H 1%nat 5%nat 281%R 285%R ltac:(lia) ltac:(lia) eq_refl eq_refl ltac:(lra) ltac:(lra)) as (_ & _ & K). destruct K as (v & A & B & _); [lra|]. exists v. split; assumption.
Qed.

(** the result of min_max with the option on the witness frame *)
Lemma hum_witness_values : exists out,
  disaggregate_humidity modern hum_frame "min_max" (Some (map (fun t => (t, hum_temp t)) (hours_index 19000 2))) None None None None true = Ok out /\
  map fst out = hours_index 19000 2 /\
  values_on (19000 + Z.of_nat 0) out = Fin 100 :: repeat (Fin (86 + 1 / 4)) 23 /\
  values_on (19000 + Z.of_nat 1) out = Fin (88 + 1 / 3) :: repeat (Fin (48 + 1 / 3)) 23.
Proof.
  assert (E1 : forall l, In l [("tmin", [Fin 280; Fin 281]); ("tmax", [Fin 290; Fin 285]); ("hum_min", [Fin 10; Fin 40]); ("hum_max", [Fin 100; Fin 80]); ("hum", [Fin 90; Fin 50])] -> has_column hum_frame (fst l) (snd l)).
  { intros l H. cbn [In] in H. destruct H as [<-|[<-|[<-|[<-|[<-|[]]]]]]; apply hum_frame_col; reflexivity. }
  pose proof (raw_min_max modern hum_frame 19000 2 _ _ _ _ hum_temp None None None None hum_frame_days (E1 ("hum_min", _) ltac:(cbn; auto)) (E1 ("hum_max", _) ltac:(cbn; auto)) (E1 ("tmin", _) ltac:(cbn; auto)) (E1 ("tmax", _) ltac:(cbn; auto))) as ER.
  cbn [snd] in ER.
  match type of ER with ?r = Ok (map (fun t => (t, @?g0 t)) ?l) => set (g := g0); change (r = Ok (map (fun t => (t, g t)) l)) in ER end.
  pose proof (preserve_ok modern hum_frame 19000 2 _ g hum_frame_days (E1 ("hum", _) ltac:(cbn; auto 6))) as PO. cbv zeta in PO. cbn [snd] in PO.
  assert (V : forall i h, (i < 2)%nat -> (h < 24)%nat -> g (stamp (19000 + Z.of_nat i) h) = Fin (match i, h with O, O => 100 | O, _ => 10 | _, O => 80 | _, _ => 40 end)).
  { intros i h Hi Hh. unfold g. rewrite !at_day_stamp by exact Hh. unfold hum_temp. rewrite stamp_hour, stamp_date by exact Hh.
    destruct i as [|[|i]]; [| |lia]; destruct h as [|h]; cbn [nth].
    1,3: cbn [Z.of_nat Z.eqb Z.add Pos.add Pos.eqb Pos.of_succ_nat]; rewrite !xsub_Fin, xdiv_Fin, xmul_Fin, xadd_Fin by lra; f_equal; field.
    all: replace (Z.of_nat (S h) =? 0) with false by (symmetry; apply Z.eqb_neq; lia); cbn [Z.of_nat Z.eqb Z.add Pos.add Pos.eqb Pos.of_succ_nat];
      rewrite !xsub_Fin, xdiv_Fin, xmul_Fin, xadd_Fin by lra; f_equal; field. }
  clearbody g.
  assert (W : forall i, (i < 2)%nat -> values_on (19000 + Z.of_nat i) (map (fun t => (t, g t)) (hours_index 19000 2)) = map Fin (match i with O => 100%R | _ => 80%R end :: repeat (match i with O => 10%R | _ => 40%R end) 23)).
  { intros i Hi. rewrite (values_on_map_hours g 19000 2 i Hi). rewrite (map_ext_in _ (fun h => Fin (match i, h with O, O => 100 | O, _ => 10 | _, O => 80 | _, _ => 40 end))).
    - destruct i as [|[|i]]; [reflexivity|reflexivity|lia].
    - intros h Hh. apply in_seq in Hh. apply V; [exact Hi|lia]. }
  set (s := map (fun t => (t, g t)) (hours_index 19000 2)) in *.
  assert (BI : forall i, (i < 2)%nat -> day_bias s [Fin 90; Fin 50] 19000 i = Fin (match i with O => - (76 + 1 / 4) | _ => - (8 + 1 / 3) end)).
  { intros i Hi. unfold day_bias. rewrite (W i Hi), nanmean_numeric; [|apply numeric_Fin|rewrite fins_Fin; discriminate]. rewrite fins_Fin.
    destruct i as [|[|i]]; [| |lia]; cbn [nth]; rewrite xsub_Fin; f_equal; unfold Rmean; cbn [Rsum fold_right repeat length]; rewrite INR_IZR_INZ; cbn [Z.of_nat Pos.of_succ_nat Pos.succ]; field. }
  eexists. split.
  { unfold disaggregate_humidity, disaggregate_humidity_gen. cbn [existsb String.eqb Ascii.eqb Bool.eqb orb negb]. rewrite ER. cbn [bind]. rewrite PO. cbn [bind]. rewrite clip_series. reflexivity. }
  split; [apply fst_series|].
  assert (K : forall i h, (i < 2)%nat -> (h < 24)%nat -> at_day 19000 (map (day_bias s [Fin 90; Fin 50] 19000) (seq 0 2)) NaN (stamp (19000 + Z.of_nat i) h) = Fin (match i with O => - (76 + 1 / 4) | _ => - (8 + 1 / 3) end)).
  { intros i h Hi Hh. rewrite at_day_stamp by exact Hh. rewrite (nth_map_in _ (seq 0 2) i O NaN) by (rewrite seq_length; exact Hi). rewrite seq_nth by exact Hi. apply BI, Hi. }
  split; rewrite values_on_map_hours by lia.
  - rewrite (map_ext_in _ (fun h => Fin (match h with O => 100 | _ => 86 + 1 / 4 end))); [reflexivity|]. intros h Hh. apply in_seq in Hh. rewrite (K 0%nat h), (V 0%nat h) by lia.
    cbn [n_isnan Num_xr xisnan]. rewrite xsub_Fin, clip1_limited. cbn [limited_x]. f_equal. destruct h; [rewrite limited_high by lra; reflexivity|rewrite limited_id by lra; lra].
  - rewrite (map_ext_in _ (fun h => Fin (match h with O => 88 + 1 / 3 | _ => 48 + 1 / 3 end))); [reflexivity|]. intros h Hh. apply in_seq in Hh. rewrite (K 1%nat h), (V 1%nat h) by lia.
    cbn [n_isnan Num_xr xisnan]. rewrite xsub_Fin, clip1_limited. cbn [limited_x]. f_equal. destruct h; rewrite limited_id by lra; lra.
Qed.
(** clipping can spoil the mean: 86.8 instead of the observed 90 *)
Theorem C49_clipping_refuted : exists d d0 n hum f out i o,
  day_frame d d0 n /\ has_column d "hum" hum /\ (i < n)%nat /\ nth i hum NaN = Fin o /\ (0 <= o <= 100)%R /\
  disaggregate_humidity modern d "min_max" (Some (map (fun t => (t, f t)) (hours_index d0 n))) None None None None true = Ok out /\
  (exists l, values_on (d0 + Z.of_nat i) out = map Fin l /\ length l = 24%nat /\ Rmean l <> o).
Proof.
  destruct hum_witness_values as (out & E & _ & V & _). exists hum_frame, 19000, 2%nat, [Fin 90; Fin 50], hum_temp, out, 0%nat, 90%R.
  split; [apply hum_frame_days|]. split; [apply hum_frame_col; reflexivity|]. split; [lia|]. split; [reflexivity|]. split; [lra|]. split; [exact E|].
  exists (100%R :: repeat (86 + 1 / 4)%R 23). split; [rewrite V; reflexivity|]. split; [reflexivity|].
  unfold Rmean. cbn [Rsum fold_right repeat length]. rewrite INR_IZR_INZ. cbn [Z.of_nat Pos.of_succ_nat Pos.succ]. lra.
Qed.
Print Assumptions C49_clipping_refuted.
Example C49_example : exists out,
  disaggregate_humidity modern hum_frame "min_max" (Some (map (fun t => (t, hum_temp t)) (hours_index 19000 2))) None None None None true = Ok out /\
  Rmean (fins (values_on (19000 + Z.of_nat 1) out)) = 50%R.
Proof.
  destruct hum_witness_values as (out & E & EI & _ & V). exists out. split; [exact E|].
  apply (C49_preserved_mean modern hum_frame 19000 2 [Fin 90; Fin 50] "min_max" (Some (map (fun t => (t, hum_temp t)) (hours_index 19000 2))) None None None None out 1%nat 50%R hum_frame_days); try assumption; try reflexivity; try lia.
  - apply hum_frame_col; reflexivity.
  - intros v Hv. right. rewrite V in Hv. destruct Hv as [<-|Hv]; [exists (88 + 1 / 3)%R; split; [reflexivity|lra]|]. apply repeat_spec in Hv. subst v. exists (48 + 1 / 3)%R. split; [reflexivity|lra].
  - exists (88 + 1 / 3)%R. rewrite V. left. reflexivity.
Qed.

(** ** C77: the dew point methods ignore the dates of the temperature series *)
Lemma combine_fst {A B} (l : list A) (k : list B) : length k = length l -> map fst (combine l k) = l.
Proof. revert k. induction l as [|p l IH]; intros [|q k] L; cbn in *; try discriminate; [reflexivity|]. f_equal. apply IH. lia. Qed.
Lemma nth_hours {A} (g : Z -> A) d0 n i h x : (i < n)%nat -> (h < 24)%nat -> nth (i * 24 + h) (map g (hours_index d0 n)) x = g (stamp (d0 + Z.of_nat i) h).
Proof.
  intros Hi Hh. rewrite (nth_map_in g (hours_index d0 n) (i * 24 + h) 0 x) by (rewrite hours_length; lia). f_equal.
  unfold hours_index. rewrite grid_nth by lia. unfold stamp, us_day, us_hour. lia.
Qed.
Lemma dewpoint_any e d0 n (tmin : list xr) (tp : series xr) a0 a1 kr : length tmin = n -> n <> O ->
  dewpoint_humidity saturation_x wave_x e false (daily d0 tmin) (Some tp) a0 a1 kr
  = if Nat.eqb (length tp) (n * 24)
    then Ok (map (fun q => (fst (fst q), (n_ofZ 100 * saturation_x (snd (snd q)) / saturation_x (snd (fst q)))%num))
                 (combine tp (map (fun t => (t, at_day d0 (dew a0 a1 tmin) NaN t)) (hours_index d0 n))))
    else Err ValueError.
Proof.
  intros L NE. unfold dewpoint_humidity. rewrite <- (daily_map (fun x => (a0 + a1 * x)%num)). fold (dew a0 a1 tmin).
  rewrite (distribute_daily e d0 n); [|unfold dew; rewrite map_length; exact L|exact NE]. cbn [bind]. rewrite map_length, hours_length.
  destruct (Nat.eqb _ _); reflexivity.
Qed.
(** hour h of day i of the daily data meets row 24*i+h of the temperature series, whatever its label *)
Theorem C77_combined_by_position e d d0 n tmin tp a0 a1 kr mhp :
  day_frame d d0 n -> has_column d "tmin" tmin -> length tp = (n * 24)%nat ->
  exists out, disaggregate_humidity e d "dewpoint_regression" (Some tp) (Some (Fin a0)) (Some (Fin a1)) kr mhp false = Ok out /\
    map fst out = map fst tp /\
    forall i h m T, (i < n)%nat -> (h < 24)%nat -> nth i tmin NaN = Fin m -> nth (i * 24 + h) (map snd tp) NaN = Fin T ->
      (0.53 < a0 + a1 * m)%R -> (0.53 < T)%R ->
      nth (i * 24 + h) (map snd out) NaN = Fin (Rmin 100 (100 * svp (a0 + a1 * m) / svp T)).
Proof.
  intros F C L. destruct (column_daily d d0 n _ _ F C) as [E LT]. eexists. split.
  { unfold disaggregate_humidity, disaggregate_humidity_gen. cbn [existsb String.eqb Ascii.eqb Bool.eqb orb negb]. unfold raw_humidity. cbn [String.eqb Ascii.eqb Bool.eqb orb].
    rewrite E. cbn [bind]. rewrite (dewpoint_any e d0 n) by (try exact LT; exact (proj1 F)). rewrite L, Nat.eqb_refl. cbn [bind]. reflexivity. }
  set (td := map (fun t => (t, at_day d0 (dew (Fin a0) (Fin a1) tmin) NaN t)) (hours_index d0 n)).
  assert (LD : length td = length tp) by (unfold td; rewrite map_length, hours_length; congruence).
  rewrite !map_map. cbn [fst snd]. split.
  - transitivity (map fst (map fst (combine tp td))); [rewrite map_map; reflexivity|]. f_equal. apply combine_fst, LD.
  - intros i h m T Hi Hh Em ET Hm HT. assert (HK : (i * 24 + h < length tp)%nat) by lia.
    rewrite (nth_map_in _ (combine tp td) (i * 24 + h) ((0, NaN), (0, NaN)) NaN) by (rewrite combine_length; lia).
    rewrite combine_nth by congruence. cbn [fst snd].
    rewrite (nth_map_in snd tp _ (0, NaN) NaN HK) in ET. rewrite ET.
    assert (ED : nth (i * 24 + h) td (0, NaN) = (stamp (d0 + Z.of_nat i) h, Fin (a0 + a1 * m))).
    { unfold td. rewrite (nth_hours (fun t => (t, at_day d0 (dew (Fin a0) (Fin a1) tmin) NaN t))) by assumption. rewrite at_day_stamp by exact Hh. f_equal. unfold dew. rewrite (nth_map_in _ tmin i NaN NaN) by lia. rewrite Em. reflexivity. }
    rewrite ED. cbn [snd]. rewrite !saturation_ok, (nofZ_xr 100), xmul_Fin by assumption. pose proof (svp_pos T). pose proof (svp_pos (a0 + a1 * m)). rewrite xdiv_Fin by lra. rewrite <- (nofZ_xr 100), clip1_limited. cbn [limited_x].
    f_equal. unfold limited. f_equal. apply Rmax_right. apply Rmult_le_pos; [lra|left; apply Rinv_0_lt_compat; lra].
Qed.
Print Assumptions C77_combined_by_position.
Theorem C77_wrong_length e d d0 n tmin tp a0 a1 kr mhp keep :
  day_frame d d0 n -> has_column d "tmin" tmin -> length tp <> (n * 24)%nat ->
  disaggregate_humidity e d "minimal" (Some tp) a0 a1 kr mhp keep = Err ValueError /\
  forall b0 b1, disaggregate_humidity e d "dewpoint_regression" (Some tp) (Some b0) (Some b1) kr mhp keep = Err ValueError.
Proof.
  intros F C L. destruct (column_daily d d0 n _ _ F C) as [E LT]. unfold disaggregate_humidity, disaggregate_humidity_gen. cbn [existsb String.eqb Ascii.eqb Bool.eqb orb negb]. unfold raw_humidity. cbn [String.eqb Ascii.eqb Bool.eqb orb].
  rewrite E. cbn [bind]. apply Nat.eqb_neq in L. split; [|intros b0 b1]; rewrite (dewpoint_any e d0 n) by (try exact LT; exact (proj1 F)); rewrite L; reflexivity.
Qed.
Print Assumptions C77_wrong_length.
(** a temperature series of a completely different year is accepted *)
Example C77_example : exists out,
  disaggregate_humidity modern hum_frame "dewpoint_regression" (Some (map (fun t => (t, Fin 290)) (hours_index 1 2))) (Some (Fin 0)) (Some (Fin 1)) None None false = Ok out /\
  map fst out = hours_index 1 2 /\ nth 30 (map snd out) NaN = Fin (Rmin 100 (100 * svp 281 / svp 290)).
Proof.
  destruct (C77_combined_by_position modern hum_frame 19000 2 [Fin 280; Fin 281] (map (fun t => (t, Fin 290)) (hours_index 1 2)) 0 1 None None hum_frame_days) as (out & E & EI & H);
    [apply hum_frame_col; reflexivity|rewrite map_length; apply hours_length|].
  exists out. split; [exact E|]. split; [rewrite EI; apply fst_series|]. change 30%nat with (1 * 24 + 6)%nat. rewrite (H 1%nat 6%nat 281%R 290%R); try lia; try lra; try reflexivity.
  do 2 f_equal. replace (0 + 1 * 281)%R with 281%R by lra. reflexivity.
Qed.

(** ** C79: linear variation of the dew point *)
Theorem C79_linear_dewpoint e d d0 n tmin f a0 a1 kr mhp : day_frame d d0 n -> has_column d "tmin" tmin -> kr = 6 \/ kr = 12 ->
  exists out, disaggregate_humidity e d "linear_dewpoint_variation" (Some (map (fun t => (t, f t)) (hours_index d0 n))) (Some (Fin a0)) (Some (Fin a1)) (Some kr) mhp false = Ok out /\
    map fst out = hours_index d0 n /\
    forall i h m m' T, (i < n)%nat -> (h < 24)%nat -> nth i tmin NaN = Fin m -> next_day tmin i = Fin m' -> f (stamp (d0 + Z.of_nat i) h) = Fin T ->
      let td := (a0 + a1 * m + INR h / 24 * (a1 * m' - a1 * m) + dew_wave kr (Z.of_nat h))%R in
      (0.53 < td)%R -> (0.53 < T)%R ->
      nth h (values_on (d0 + Z.of_nat i) out) NaN = Fin (Rmin 100 (100 * svp td / svp T)).
Proof.
  intros F C K. destruct (column_daily d d0 n _ _ F C) as [_ L]. eexists. split.
  { unfold disaggregate_humidity, disaggregate_humidity_gen. cbn [existsb String.eqb Ascii.eqb Bool.eqb orb negb].
    rewrite (raw_linear e d d0 n tmin f (Fin a0) (Fin a1) kr mhp F C K). cbn [bind]. rewrite clip_series. reflexivity. }
  split; [apply fst_series|]. intros i h m m' T Hi Hh E1 E2 E3 td Htd HT. rewrite value_at by assumption. cbv zeta. rewrite !at_day_stamp, stamp_hour by exact Hh.
  assert (ED : nth i (dew (Fin a0) (Fin a1) tmin) NaN = Fin (a0 + a1 * m)) by (unfold dew; rewrite (nth_map_in _ tmin i NaN NaN) by lia; rewrite E1; reflexivity).
  assert (ED' : nth i (map (next_day (dew (Fin a0) (Fin a1) tmin)) (seq 0 n)) NaN = Fin (a0 + a1 * m')).
  { rewrite (nth_map_in _ (seq 0 n) i O NaN) by (rewrite seq_length; exact Hi). rewrite seq_nth by exact Hi. cbn [Nat.add]. unfold next_day in *. unfold dew at 1. rewrite map_length.
    destruct (Nat.eqb_spec (S i) (length tmin)); unfold dew; rewrite (nth_map_in _ tmin _ NaN NaN) by lia; rewrite E2; reflexivity. }
  rewrite ED, ED', E3.
  assert (EW : wave_x kr (Z.of_nat h) = Fin (dew_wave kr (Z.of_nat h))).
  { unfold wave_x, dew_wave. rewrite !nofZ_xr, n1_xr. change xpi with (Fin PI). rewrite xadd_Fin, !xmul_Fin, !xdiv_Fin, xsub_Fin, xsin_Fin by (try lra; destruct K as [-> | ->]; lra).
    rewrite lit_xr by lia. change (10 ^ 1) with 10. rewrite xmul_Fin. f_equal. lra. }
  rewrite EW, !nofZ_xr, xsub_Fin, xdiv_Fin, xmul_Fin, !xadd_Fin by lra.
  replace (a0 + a1 * m + (IZR (Z.of_nat h) / 24 * (a0 + a1 * m' - (a0 + a1 * m)) + dew_wave kr (Z.of_nat h)))%R with td by (unfold td; rewrite INR_IZR_INZ; field).
  rewrite !saturation_ok, xmul_Fin by assumption. pose proof (svp_pos T). pose proof (svp_pos td). rewrite xdiv_Fin by lra. rewrite <- (nofZ_xr 100), clip1_limited. cbn [limited_x].
  f_equal. unfold limited. f_equal. apply Rmax_right. apply Rmult_le_pos; [lra|left; apply Rinv_0_lt_compat; lra].
Qed.
Print Assumptions C79_linear_dewpoint.
(** the wave leaves the daily mean of the dew point unchanged *)
Theorem C79_wave_mean_zero kr : kr = 6 \/ kr = 12 -> Rsum (map (fun h => dew_wave kr (Z.of_nat h)) (seq 0 24)) = 0%R.
Proof.
  intro K.
  assert (P : forall k h : nat, (Z.of_nat k = kr) -> dew_wave kr (Z.of_nat (h + k)) = (- dew_wave kr (Z.of_nat h))%R).
  { intros k h E. unfold dew_wave. rewrite Nat2Z.inj_add, E, plus_IZR.
    replace ((IZR (Z.of_nat h) + IZR kr + 1) * PI / IZR kr - 3 * PI / 4)%R with ((IZR (Z.of_nat h) + 1) * PI / IZR kr - 3 * PI / 4 + PI)%R by (destruct K as [-> | ->]; field).
    rewrite neg_sin. ring. }
  unfold Rsum. destruct K as [-> | ->]; cbn [seq map fold_right].
  - pose proof (fun h => P 6%nat h eq_refl) as Q. pose proof (Q 0%nat) as Q0; pose proof (Q 1%nat) as Q1; pose proof (Q 2%nat) as Q2; pose proof (Q 3%nat) as Q3; pose proof (Q 4%nat) as Q4; pose proof (Q 5%nat) as Q5;
      pose proof (Q 12%nat) as R0; pose proof (Q 13%nat) as R1; pose proof (Q 14%nat) as R2; pose proof (Q 15%nat) as R3; pose proof (Q 16%nat) as R4; pose proof (Q 17%nat) as R5. cbn [Nat.add] in *. lra.
  - pose proof (fun h => P 12%nat h eq_refl) as Q. pose proof (Q 0%nat) as Q0; pose proof (Q 1%nat) as Q1; pose proof (Q 2%nat) as Q2; pose proof (Q 3%nat) as Q3; pose proof (Q 4%nat) as Q4; pose proof (Q 5%nat) as Q5;
      pose proof (Q 6%nat) as R0; pose proof (Q 7%nat) as R1; pose proof (Q 8%nat) as R2; pose proof (Q 9%nat) as R3; pose proof (Q 10%nat) as R4; pose proof (Q 11%nat) as R5. cbn [Nat.add] in *. lra.
Qed.
Print Assumptions C79_wave_mean_zero.
(** other values of kr, or a missing coefficient, are refused *)
Theorem C79_refused e d d0 n tmin temp a0 a1 kr mhp keep : day_frame d d0 n -> has_column d "tmin" tmin ->
  (a0 = None \/ a1 = None \/ kr = None \/ exists k, kr = Some k /\ k <> 6 /\ k <> 12) ->
  disaggregate_humidity e d "linear_dewpoint_variation" temp a0 a1 kr mhp keep = Err AssertionError.
Proof.
  intros F C H. destruct (column_daily d d0 n _ _ F C) as [E L]. unfold disaggregate_humidity, disaggregate_humidity_gen. cbn [existsb String.eqb Ascii.eqb Bool.eqb orb negb]. unfold raw_humidity. cbn [String.eqb Ascii.eqb Bool.eqb orb].
  destruct a0 as [a0|]; [|reflexivity]. destruct a1 as [a1|]; [|reflexivity]. rewrite E. cbn [bind]. unfold dewpoint_humidity. rewrite <- (daily_map (fun x => (a0 + a1 * x)%num)).
  rewrite (distribute_daily e d0 n); [|rewrite map_length; exact L|exact (proj1 F)]. cbn [bind]. destruct kr as [k|]; [|reflexivity].
  destruct H as [H|[H|[H|(k' & EK & N1 & N2)]]]; [discriminate..|]. assert (k' = k) by congruence. subst k'. apply Z.eqb_neq in N1, N2. rewrite N1, N2. reflexivity.
Qed.
Print Assumptions C79_refused.
Example C79_example : exists out,
  disaggregate_humidity modern hum_frame "linear_dewpoint_variation" (Some (map (fun t => (t, hum_temp t)) (hours_index 19000 2))) (Some (Fin 0)) (Some (Fin 1)) (Some 12) None false = Ok out /\
  nth 8 (values_on (19000 + Z.of_nat 0) out) NaN = Fin (Rmin 100 (100 * svp (280 + 1 / 3) / svp 290)).
Proof.
  destruct (C79_linear_dewpoint modern hum_frame 19000 2 [Fin 280; Fin 281] hum_temp 0 1 12 None hum_frame_days) as (out & E & EI & H);
    [apply hum_frame_col; reflexivity|right; reflexivity|]. exists out. split; [exact E|].
  assert (W : (0 + 1 * 280 + INR 8 / 24 * (1 * 281 - 1 * 280) + dew_wave 12 (Z.of_nat 8) = 280 + 1 / 3)%R).
  { unfold dew_wave. cbn [Z.of_nat Pos.of_succ_nat Pos.succ]. replace ((8 + 1) * PI / 12 - 3 * PI / 4)%R with 0%R by field. rewrite sin_0. rewrite INR_IZR_INZ. cbn [Z.of_nat Pos.of_succ_nat Pos.succ]. lra. }
  pose proof (H 0%nat 8%nat 280%R 281%R 290%R ltac:(lia) ltac:(lia) eq_refl eq_refl eq_refl) as K. cbv zeta in K. rewrite W in K. apply K; lra.
Qed.

(** ** C76: the table of month, hour and wet/dry day *)
Lemma mhp_eqb_spec a b : reflect (a = b) (mhp_eqb a b).
Proof.
  destruct a as ((m, h), w), b as ((m', h'), w'). cbn. destruct (Z.eqb_spec m m'), (Z.eqb_spec h h'), (Bool.eqb_spec w w'); cbn; constructor; congruence.
Qed.
Lemma mhp_get_table {A B} (G : mhp_key -> list A) (f : list A -> B) ks k :
  mhp_get k (flat_map (fun k => match G k with [] => [] | g => [(k, f g)] end) ks)
  = if existsb (mhp_eqb k) ks then match G k with [] => None | g => Some (f g) end else None.
Proof.
  induction ks as [|k' ks IH]; [reflexivity|]. cbn [flat_map existsb].
  assert (E : mhp_get k ((match G k' with [] => [] | g => [(k', f g)] end) ++ flat_map (fun k => match G k with [] => [] | g => [(k, f g)] end) ks)
              = if mhp_eqb k k' then match G k with [] => mhp_get k (flat_map (fun k => match G k with [] => [] | g => [(k, f g)] end) ks) | g => Some (f g) end
                else mhp_get k (flat_map (fun k => match G k with [] => [] | g => [(k, f g)] end) ks)).
  { destruct (mhp_eqb_spec k k') as [->|NE].
    - destruct (G k') as [|a g]; [reflexivity|]. cbn [app mhp_get]. destruct (mhp_eqb_spec k' k'); [reflexivity|contradiction].
    - destruct (G k') as [|a g]; [reflexivity|]. cbn [app mhp_get]. destruct (mhp_eqb_spec k' k); [congruence|reflexivity]. }
  rewrite E, IH. destruct (mhp_eqb k k'); cbn [orb]; [|reflexivity]. destruct (G k); [destruct (existsb _ _); reflexivity|reflexivity].
Qed.
Definition mhp_keys : list mhp_key :=
  flat_map (fun m => flat_map (fun h => map (fun w => (m, h, w)) [false; true]) (map Z.of_nat (seq 0 24))) (map Z.of_nat (seq 1 12)).
Lemma mhp_keys_In m h w : existsb (mhp_eqb (m, h, w)) mhp_keys = true <-> 1 <= m <= 12 /\ 0 <= h < 24.
Proof.
  rewrite existsb_exists. split.
  - intros (k & HK & E). destruct (mhp_eqb_spec (m, h, w) k) as [<-|]; [|discriminate]. unfold mhp_keys in HK.
    apply in_flat_map in HK as (m' & HM & HK). apply in_flat_map in HK as (h' & HH & HK). apply in_map_iff in HK as (w' & EK & _).
    apply in_map_iff in HM as (i & <- & HI). apply in_map_iff in HH as (j & <- & HJ). apply in_seq in HI, HJ. assert (m = Z.of_nat i /\ h = Z.of_nat j) as [-> ->] by (split; congruence). lia.
  - intros [HM HH]. exists (m, h, w). split; [|destruct (mhp_eqb_spec (m, h, w) (m, h, w)); [reflexivity|contradiction]].
    unfold mhp_keys. apply in_flat_map. exists m. split; [apply in_map_iff; exists (Z.to_nat m); split; [lia|apply in_seq; lia]|].
    apply in_flat_map. exists h. split; [apply in_map_iff; exists (Z.to_nat h); split; [lia|apply in_seq; lia]|]. destruct w; cbn; auto.
Qed.

Theorem C76_table d precip hum :
  assoc "precip" (f_cols d) = Some precip -> assoc "hum" (f_cols d) = Some hum ->
  length precip = length (f_index d) -> length hum = length (f_index d) -> numeric precip -> numeric hum ->
  exists tbl, calculate_month_hour_precip_mean d = Ok tbl /\
    forall m h wet,
      let g := class_values (combine (f_index d) precip) (combine (f_index d) hum) m h wet in
      (mhp_get (m, h, wet) tbl = None <-> g = []) /\
      (fins g <> [] -> mhp_get (m, h, wet) tbl = Some (Fin (Rmean (fins g)))) /\
      (g <> [] -> fins g = [] -> mhp_get (m, h, wet) tbl = Some NaN).
Proof.
  intros EP EH LP LH NP NH. set (ps := combine (f_index d) precip). set (hs := combine (f_index d) hum).
  assert (IP : map fst ps = f_index d) by (apply combine_fst; exact LP). assert (IH : map fst hs = f_index d) by (apply combine_fst; exact LH).
  assert (SND : forall v : list xr, length v = length (f_index d) -> map snd (combine (f_index d) v) = v).
  { intro v. generalize (f_index d). clear. induction v as [|x v IHv]; intros [|t l] L; cbn in *; try discriminate; [reflexivity|]. f_equal. apply IHv. lia. }
  assert (WD : forall t, In t (f_index d) -> wet_day ps t = Ok (wet_on ps t)).
  { intros t Ht. unfold wet_day. rewrite <- IP in Ht. rewrite (resample_day nansum ps t Ht). rewrite nansum_numeric by (apply values_on_numeric; unfold ps; rewrite SND by exact LP; exact NP).
    change (n0 <? Fin (Rsum (fins (values_on (date_of t) ps))))%num with (Rltb 0 (Rsum (fins (values_on (date_of t) ps)))).
    unfold wet_on. fold (values_on (date_of t) ps). destruct (Rltb_spec 0 (Rsum (fins (values_on (date_of t) ps)))); destruct (Rlt_dec _ _); try reflexivity; contradiction. }
  unfold calculate_month_hour_precip_mean, fcol. rewrite EP, EH. cbn [bind]. fold ps hs.
  rewrite (mapM_Ok _ (fun p => ((month_of (fst p), hour_of (fst p), wet_on ps (fst p)), snd p))).
  2: { intros p Hp. rewrite WD; [reflexivity|]. rewrite <- IH. apply in_map, Hp. }
  cbn [bind]. fold mhp_keys. eexists. split; [reflexivity|]. intros m h wet. set (g := class_values ps hs m h wet).
  set (rows := map (fun p => ((month_of (fst p), hour_of (fst p), wet_on ps (fst p)), snd p)) hs).
  rewrite (mhp_get_table (fun k => filter (fun r => mhp_eqb (fst r) k) rows) (fun l => nanmean (map snd l))).
  assert (EG : map snd (filter (fun r => mhp_eqb (fst r) (m, h, wet)) rows) = g).
  { unfold rows, g, class_values. clear. induction hs as [|p l IH]; [reflexivity|]. cbn [map filter fst]. cbn [mhp_eqb]. destruct (_ && _); cbn [map snd]; rewrite IH; reflexivity. }
  assert (NG : numeric g).
  { unfold g, class_values, numeric. unfold numeric in NH. rewrite Forall_forall in *. intros x Hx. apply in_map_iff in Hx as (p & <- & Hp). apply filter_In in Hp as [Hp _]. apply NH. rewrite <- (SND hum LH). apply in_map, Hp. }
  assert (GN : existsb (mhp_eqb (m, h, wet)) mhp_keys = false -> g = []).
  { intro E. destruct g as [|x g'] eqn:Eg; [reflexivity|exfalso]. assert (HX : In x g) by (rewrite Eg; left; reflexivity). unfold g, class_values in HX.
    apply in_map_iff in HX as (p & _ & Hp). apply filter_In in Hp as [_ Hp]. apply andb_true_iff in Hp as [Hp _]. apply andb_true_iff in Hp as [HM HH]. apply Z.eqb_eq in HM, HH.
    assert (K : existsb (mhp_eqb (m, h, wet)) mhp_keys = true); [|congruence]. apply mhp_keys_In. rewrite <- HM, <- HH. split; [apply month_range|apply hour_range]. }
  rewrite <- EG in *. clearbody rows. set (F := filter (fun r => mhp_eqb (fst r) (m, h, wet)) rows) in *.
  destruct (existsb (mhp_eqb (m, h, wet)) mhp_keys).
  - destruct F as [|a F']; [split; [split; reflexivity|split; [intro K; exfalso; apply K; reflexivity|intro K; exfalso; apply K; reflexivity]]|].
    split; [split; discriminate|]. split; [intro K; rewrite nanmean_numeric by assumption; reflexivity|intros _ K; rewrite nanmean_empty by assumption; reflexivity].
  - rewrite (GN eq_refl) in *. split; [split; reflexivity|]. split; [intro K; exfalso; apply K; reflexivity|intro K; exfalso; apply K; reflexivity].
Qed.
Print Assumptions C76_table.

Lemma wet_amount_spec x : (n0 <? x)%num = wet_amount x.
Proof.
  rewrite n0_xr. destruct x; reflexivity.
Qed.
(** every hour gets the entry for its month, its hour and whether its day is wet; a missing amount counts as dry *)
Theorem C76_lookup e d d0 n precip temp a0 a1 kr tbl (v : nat -> nat -> xr) :
  day_frame d d0 n -> has_column d "precip" precip ->
  (forall i h, (i < n)%nat -> (h < 24)%nat -> mhp_get (month_of_day (d0 + Z.of_nat i), Z.of_nat h, wet_amount (nth i precip NaN)) tbl = Some (v i h)) ->
  exists out, disaggregate_humidity e d "month_hour_precip_mean" temp a0 a1 kr (Some tbl) false = Ok out /\ map fst out = hours_index d0 n /\
    forall i h, (i < n)%nat -> (h < 24)%nat -> nth h (values_on (d0 + Z.of_nat i) out) NaN = limited_x (v i h).
Proof.
  intros F C H. destruct (column_daily d d0 n _ _ F C) as [E L]. unfold disaggregate_humidity, disaggregate_humidity_gen. cbn [existsb String.eqb Ascii.eqb Bool.eqb orb negb].
  unfold raw_humidity. cbn [String.eqb Ascii.eqb Bool.eqb orb]. rewrite E. cbn [bind]. rewrite (distribute_daily e d0 n) by (try exact L; exact (proj1 F)). cbn [bind]. rewrite mapM_map. cbn [fst snd].
  rewrite (mapM_Ok _ (fun t => (t, match mhp_get (month_of t, hour_of t, wet_amount (at_day d0 precip NaN t)) tbl with Some x => x | None => NaN end))).
  - cbn [bind]. rewrite clip_series. eexists. split; [reflexivity|]. split; [apply fst_series|]. intros i h Hi Hh. rewrite value_at by assumption.
    rewrite stamp_month, stamp_hour, at_day_stamp by exact Hh. rewrite H by assumption. apply clip1_limited.
  - intros t Ht. assert (exists i h, (i < n)%nat /\ (h < 24)%nat /\ t = stamp (d0 + Z.of_nat i) h) as (i & h & Hi & Hh & ->).
    { unfold hours_index in Ht. apply grid_In in Ht as (k & Hk & ->). exists (k / 24)%nat, (k mod 24)%nat. split; [apply Nat.div_lt_upper_bound; lia|]. split; [apply Nat.mod_upper_bound; lia|].
      unfold stamp, us_day, us_hour. pose proof (Nat.div_mod k 24 ltac:(lia)). lia. }
    rewrite wet_amount_spec. rewrite stamp_month, stamp_hour, at_day_stamp by exact Hh. rewrite H by assumption. reflexivity.
Qed.
Print Assumptions C76_lookup.
Theorem C76_missing_class e d d0 n precip temp a0 a1 kr tbl keep i h :
  day_frame d d0 n -> has_column d "precip" precip -> (i < n)%nat -> (h < 24)%nat ->
  mhp_get (month_of_day (d0 + Z.of_nat i), Z.of_nat h, wet_amount (nth i precip NaN)) tbl = None ->
  disaggregate_humidity e d "month_hour_precip_mean" temp a0 a1 kr (Some tbl) keep = Err KeyError.
Proof.
  intros F C Hi Hh H. destruct (column_daily d d0 n _ _ F C) as [E L]. unfold disaggregate_humidity, disaggregate_humidity_gen. cbn [existsb String.eqb Ascii.eqb Bool.eqb orb negb].
  unfold raw_humidity. cbn [String.eqb Ascii.eqb Bool.eqb orb]. rewrite E. cbn [bind]. rewrite (distribute_daily e d0 n) by (try exact L; exact (proj1 F)). cbn [bind]. rewrite mapM_map. cbn [fst snd].
  match goal with |- bind (mapM ?f ?l) _ = _ => assert (K : mapM f l = Err KeyError) end.
  { assert (HI : In (stamp (d0 + Z.of_nat i) h) (hours_index d0 n)).
    { unfold hours_index. apply grid_In. exists (i * 24 + h)%nat. unfold stamp, us_day, us_hour. lia. }
    revert HI. generalize (hours_index d0 n). induction l as [|t l IH]; intro HI; [destruct HI|]. cbn [mapM].
    destruct (mhp_get (month_of t, hour_of t, (n0 <? at_day d0 precip NaN t)%num) tbl) eqn:EM; cbn [bind]; [|reflexivity].
    destruct HI as [->|HI]; [|rewrite (IH HI); reflexivity]. exfalso. rewrite wet_amount_spec, stamp_month, stamp_hour, at_day_stamp in EM by exact Hh. congruence. }
  rewrite K. reflexivity.
Qed.
Print Assumptions C76_missing_class.

(** one wet and one dry January day; the humidity is missing once *)
Definition mhp_frame : dframe xr :=
  Build_dframe (map (fun h => stamp 0 h) [5; 6]%nat ++ map (fun h => stamp 1 h) [5; 6]%nat)
    [("precip", [Fin 0; Fin 2; Fin 0; NaN]); ("hum", [Fin 70; Fin 80; NaN; Fin 60])].
Example C76_example : exists tbl, calculate_month_hour_precip_mean mhp_frame = Ok tbl /\
  mhp_get (1, 5, true) tbl = Some (Fin 70) /\ mhp_get (1, 6, false) tbl = Some (Fin 60) /\ mhp_get (1, 5, false) tbl = Some NaN /\ mhp_get (1, 7, true) tbl = None.
Proof.
  destruct (C76_table mhp_frame [Fin 0; Fin 2; Fin 0; NaN] [Fin 70; Fin 80; NaN; Fin 60]) as (tbl & E & H); [reflexivity..|repeat (constructor; [exact I|]); constructor|repeat (constructor; [exact I|]); constructor|].
  exists tbl. split; [exact E|]. cbv zeta in H. set (ps := combine (f_index mhp_frame) [Fin 0; Fin 2; Fin 0; NaN]) in *.
  assert (W0 : forall h, (h < 24)%nat -> wet_on ps (stamp 0 h) = true).
  { intros h Hh. unfold wet_on. rewrite (stamp_date 0 h Hh). destruct (Rlt_dec 0 _) as [K|K]; [reflexivity|exfalso; apply K]. cbn. lra. }
  assert (W1 : forall h, (h < 24)%nat -> wet_on ps (stamp 1 h) = false).
  { intros h Hh. unfold wet_on. rewrite (stamp_date 1 h Hh). destruct (Rlt_dec 0 _) as [K|K]; [exfalso|reflexivity]. cbn in K. lra. }
  assert (CV : forall m h w, class_values ps (combine (f_index mhp_frame) [Fin 70; Fin 80; NaN; Fin 60]) m h w
     = map snd (filter (fun p => (fst (fst (fst p)) =? m) && (snd (fst (fst p)) =? h) && Bool.eqb (snd (fst p)) w) [((1, 5, true), Fin 70); ((1, 6, true), Fin 80); ((1, 5, false), NaN); ((1, 6, false), Fin 60)])).
  { intros m h w. unfold class_values. cbn [mhp_frame f_index map combine app filter fst snd]. rewrite !W0, !W1 by lia.
    rewrite !stamp_month, !stamp_hour by lia. change (month_of_day 0) with 1. change (month_of_day 1) with 1.
    change (Z.of_nat 5) with 5. change (Z.of_nat 6) with 6.
    repeat match goal with |- context [(1 =? m) && ?b && ?c] => destruct ((1 =? m) && b && c) end; reflexivity. }
  split; [|split; [|split]].
  - destruct (H 1 5 true) as (_ & K & _). rewrite CV in K. cbn in K. rewrite K by discriminate. do 2 f_equal. unfold Rmean. cbn. lra.
  - destruct (H 1 6 false) as (_ & K & _). rewrite CV in K. cbn in K. rewrite K by discriminate. do 2 f_equal. unfold Rmean. cbn. lra.
  - destruct (H 1 5 false) as (_ & _ & K). rewrite CV in K. cbn in K. apply K; [discriminate|reflexivity].
  - apply (H 1 7 true). rewrite CV. reflexivity.
Qed.
