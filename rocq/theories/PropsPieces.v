(** Property C140: a record disaggregated as a whole and in two pieces. *)
From Coq Require Import String ZArith List Bool Lia Reals Lra.
From Verif Require Import Py Num Cal Series Trans UtilModel UtilModel2 Frame TempModel HumModel WindModel RadModel SpecBase SpecUtil SpecTemp SpecRad SpecHum
  TimeProofs IndexProofs DaysProofs CourseProofs TempProofs TempCourse HumProofs RadProofs RadBC PropsTemp PropsHum RadAnyModel PropsRadAny SpecGapDays PropsGapDays SpecPieces.
Import ListNotations.
Open Scope string_scope.
Open Scope Z_scope.
Open Scope list_scope.

Lemma hours_pieces d0 n1 n2 : hours_index d0 (n1 + n2) = hours_index d0 n1 ++ hours_index (d0 + Z.of_nat n1) n2.
Proof.
  unfold hours_index. rewrite Nat.mul_add_distr_l, grid_app. do 2 f_equal. unfold us_day, us_hour. lia.
Qed.
Lemma days_length d0 n : length (daily_index d0 n) = n.
Proof. unfold daily_index. apply grid_length. Qed.
Lemma at_first d0 n1 (l1 l2 : list xr) t : length l1 = n1 -> In t (hours_index d0 n1) -> at_day d0 (l1 ++ l2) NaN t = at_day d0 l1 NaN t.
Proof. intros L H. apply in_hours in H as (i & h & Hi & Hh & ->). rewrite !at_day_stamp by exact Hh. apply app_nth1. lia. Qed.
Lemma at_second d0 n1 n2 (l1 l2 : list xr) t : length l1 = n1 -> In t (hours_index (d0 + Z.of_nat n1) n2) ->
  at_day d0 (l1 ++ l2) NaN t = at_day (d0 + Z.of_nat n1) l2 NaN t.
Proof.
  intros L H. apply in_hours in H as (i & h & Hi & Hh & ->). rewrite at_day_stamp by exact Hh.
  replace (d0 + Z.of_nat n1 + Z.of_nat i) with (d0 + Z.of_nat (n1 + i)) by lia. rewrite at_day_stamp by exact Hh.
  rewrite app_nth2 by lia. f_equal. lia.
Qed.
Lemma map_pieces {B} d0 n1 n2 (g g1 g2 : Z -> B) : (forall t, In t (hours_index d0 n1) -> g t = g1 t) ->
  (forall t, In t (hours_index (d0 + Z.of_nat n1) n2) -> g t = g2 t) ->
  map (fun t => (t, g t)) (hours_index d0 (n1 + n2)) = map (fun t => (t, g1 t)) (hours_index d0 n1) ++ map (fun t => (t, g2 t)) (hours_index (d0 + Z.of_nat n1) n2).
Proof.
  intros H1 H2. rewrite hours_pieces, map_app. f_equal; apply map_ext_in; intros t I; [rewrite (H1 t I)|rewrite (H2 t I)]; reflexivity.
Qed.

(** ** equal distribution, wind *)
Theorem C140_equal e d0 (l1 l2 : list xr) divide : l1 <> [] -> l2 <> [] ->
  exists o1 o2, distribute_equally e (daily d0 l1) divide = Ok o1 /\ distribute_equally e (daily (d0 + Z.of_nat (length l1)) l2) divide = Ok o2 /\
    distribute_equally e (daily d0 (l1 ++ l2)) divide = Ok (o1 ++ o2).
Proof.
  intros N1 N2. assert (N : l1 ++ l2 <> []) by (destruct l1; [contradiction|discriminate]).
  destruct divide; [rewrite !distribute_xr_divide by assumption|rewrite !distribute_xr by assumption]; eexists; eexists; (split; [reflexivity|]); (split; [reflexivity|]);
    f_equal; rewrite app_length; apply map_pieces; intros t I;
    first [rewrite (at_first d0 (length l1)) by (reflexivity || exact I) | rewrite (at_second d0 (length l1) (length l2)) by (reflexivity || exact I)]; reflexivity.
Qed.
Print Assumptions C140_equal.

Theorem C140_wind e d0 (w1 w2 : list xr) method a b s draw : w1 <> [] -> w2 <> [] -> method = "equal" \/ (method = "cosine" /\ a <> None /\ b <> None /\ s <> None) ->
  exists o1 o2 o, disaggregate_wind e (daily d0 w1) method a b s draw = Ok (o1, O) /\
    disaggregate_wind e (daily (d0 + Z.of_nat (length w1)) w2) method a b s draw = Ok (o2, O) /\
    disaggregate_wind e (daily d0 (w1 ++ w2)) method a b s draw = Ok (o, O) /\ wind_then o1 o2 = Some o.
Proof.
  intros N1 N2 M. destruct (C140_equal e d0 w1 w2 false N1 N2) as (o1 & o2 & E1 & E2 & E).
  destruct M as [->|(-> & A & B & S)]; unfold disaggregate_wind; cbn [existsb String.eqb Ascii.eqb Bool.eqb orb negb]; rewrite E1, E2, E; cbn [bind].
  - do 3 eexists. repeat (split; [reflexivity|]). reflexivity.
  - destruct a, b, s; try congruence. do 3 eexists. repeat (split; [reflexivity|]). cbn [wind_then]. rewrite map_app. reflexivity.
Qed.
Print Assumptions C140_wind.

(** ** temperature *)
Theorem C140_temperature e d d1 d2 d0 n1 n2 lo1 hi1 t1 lo2 hi2 t2 method mmt modn md st c f :
  two_pieces d d1 d2 d0 n1 n2 -> has_column d1 "tmin" lo1 -> has_column d1 "tmax" hi1 -> has_column d1 "temp" t1 ->
  has_column d2 "tmin" lo2 -> has_column d2 "tmax" hi2 -> has_column d2 "temp" t2 -> has_course c d0 (n1 + n2) f ->
  method = "mean_course_min_max" \/ method = "mean_course_mean" ->
  exists o1 o2, disaggregate_temperature e d1 method mmt modn md (Some c) st = Ok o1 /\
    disaggregate_temperature e d2 method mmt modn md (Some c) st = Ok o2 /\
    disaggregate_temperature e d method mmt modn md (Some c) st = Ok (o1 ++ o2).
Proof.
  intros ((NE1 & F1) & (NE2 & F2) & (NE & F) & J) A1 A2 A3 B1 B2 B3 HC M.
  destruct (J _ _ _ A1 B1) as [C1 L1], (J _ _ _ A2 B2) as [C2 L2], (J _ _ _ A3 B3) as [C3 L3].
  destruct A1 as [A1 LA1], A2 as [A2 LA2], A3 as [A3 LA3], B1 as [B1 LB1], B2 as [B2 LB2], B3 as [B3 LB3].
  rewrite F1, days_length in LA1, LA2, LA3. rewrite F2, days_length in LB1, LB2, LB3. rewrite F, days_length in L1, L2, L3.
  assert (T1 : temp_frame d1 d0 lo1 hi1 t1) by (repeat split; try assumption; congruence).
  assert (T2 : temp_frame d2 (d0 + Z.of_nat n1) lo2 hi2 t2) by (repeat split; try assumption; congruence).
  assert (T : temp_frame d d0 (lo1 ++ lo2) (hi1 ++ hi2) (t1 ++ t2)) by (repeat split; try assumption; congruence).
  assert (X1 : t1 <> []) by (intros ->; cbn in LA3; congruence). assert (X2 : t2 <> []) by (intros ->; cbn in LB3; congruence).
  assert (X : t1 ++ t2 <> []) by (destruct t1; [contradiction|discriminate]).
  assert (H1 : has_course c d0 (length t1) f) by (intros i Hi; apply HC; lia).
  assert (H2 : has_course c (d0 + Z.of_nat n1) (length t2) f).
  { intros i Hi. replace (d0 + Z.of_nat n1 + Z.of_nat i) with (d0 + Z.of_nat (n1 + i)) by lia. apply HC. lia. }
  assert (H : has_course c d0 (length (t1 ++ t2)) f) by (rewrite L3; exact HC).
  destruct M as [-> | ->].
  - rewrite (course_min_max_ok e d1 d0 lo1 hi1 t1 mmt modn md st c f X1 T1 H1), (course_min_max_ok e d2 _ lo2 hi2 t2 mmt modn md st c f X2 T2 H2),
      (course_min_max_ok e d d0 _ _ _ mmt modn md st c f X T H).
    do 2 eexists. split; [reflexivity|]. split; [reflexivity|]. f_equal. rewrite L3, LA3, LB3. apply map_pieces; intros t I;
      [rewrite !(at_first d0 n1) by assumption|rewrite !(at_second d0 n1 n2) by assumption]; reflexivity.
  - rewrite (course_mean_ok e d1 d0 lo1 hi1 t1 mmt modn md st c f X1 T1 H1), (course_mean_ok e d2 _ lo2 hi2 t2 mmt modn md st c f X2 T2 H2),
      (course_mean_ok e d d0 _ _ _ mmt modn md st c f X T H).
    do 2 eexists. split; [reflexivity|]. split; [reflexivity|]. f_equal. rewrite L3, LA3, LB3. apply map_pieces; intros t I;
      [rewrite !(at_first d0 n1) by assumption|rewrite !(at_second d0 n1 n2) by assumption]; reflexivity.
Qed.
Print Assumptions C140_temperature.

(** ** humidity *)
Lemma outside {A} d0 n day (s : list (Z * A)) : map fst s = hours_index d0 n -> (forall i, (i < n)%nat -> day <> d0 + Z.of_nat i) -> values_on day s = [].
Proof.
  intros E H. unfold values_on.
  assert (G : forall p, In p s -> (fst p / us_day =? day) = false).
  { intros p Hp. assert (I : In (fst p) (hours_index d0 n)) by (rewrite <- E; apply in_map, Hp). apply in_hours in I as (i & h & Hi & Hh & ->).
    apply Z.eqb_neq. change (stamp (d0 + Z.of_nat i) h / us_day) with (date_of (stamp (d0 + Z.of_nat i) h)). rewrite stamp_date by exact Hh. intro Q. apply (H i Hi). symmetry. exact Q. }
  clear E H. induction s as [|p s IH]; [reflexivity|]. cbn [filter]. rewrite (G p (or_introl eq_refl)). apply IH. intros q Hq. apply G. right. exact Hq.
Qed.
Lemma seq_moved a n : forall k, seq (a + k) n = map (fun j => (a + j)%nat) (seq k n).
Proof. induction n as [|n IH]; intro k; [reflexivity|]. cbn [seq map]. f_equal. rewrite <- IH. f_equal. lia. Qed.
(** the correction to the daily mean, when asked for, and the limits *)
Lemma finish_pieces e d d1 d2 d0 n1 n2 (g g1 g2 : Z -> xr) h1 h2 (keep : bool) :
  two_pieces d d1 d2 d0 n1 n2 -> (keep = true -> has_column d1 "hum" h1 /\ has_column d2 "hum" h2) ->
  (forall t, In t (hours_index d0 n1) -> g t = g1 t) -> (forall t, In t (hours_index (d0 + Z.of_nat n1) n2) -> g t = g2 t) ->
  let finish d g d0 n := let* h := (if keep then preserve_mean e d (map (fun t => (t, g t)) (hours_index d0 n)) else Ok (map (fun t => (t, g t)) (hours_index d0 n))) in
                         Ok (map (fun p => (fst p, clip1 n0 (n_ofZ 100) (snd p))) h) in
  exists o1 o2 : series xr, finish d1 g1 d0 n1 = Ok o1 /\ finish d2 g2 (d0 + Z.of_nat n1) n2 = Ok o2 /\ finish d g d0 (n1 + n2)%nat = Ok (o1 ++ o2).
Proof.
  intros (F1 & F2 & F & J) HK G1 G2 finish. unfold finish. destruct keep.
  2:{ cbn [bind]. do 2 eexists. split; [reflexivity|]. split; [reflexivity|]. rewrite (map_pieces d0 n1 n2 g g1 g2 G1 G2), map_app. reflexivity. }
  destruct (HK eq_refl) as [A B]. pose proof (J _ _ _ A B) as C. destruct (column_daily d1 d0 n1 _ _ F1 A) as [_ L1]. destruct (column_daily d2 _ n2 _ _ F2 B) as [_ L2].
  rewrite (preserve_ok e d1 d0 n1 h1 g1 F1 A), (preserve_ok e d2 _ n2 h2 g2 F2 B), (preserve_ok e d d0 _ _ g F C). cbn [bind].
  do 2 eexists. split; [reflexivity|]. split; [reflexivity|]. rewrite <- map_app. do 2 f_equal.
  assert (BI : map (day_bias (map (fun t => (t, g t)) (hours_index d0 (n1 + n2))) (h1 ++ h2) d0) (seq 0 (n1 + n2))
    = map (day_bias (map (fun t => (t, g1 t)) (hours_index d0 n1)) h1 d0) (seq 0 n1)
      ++ map (day_bias (map (fun t => (t, g2 t)) (hours_index (d0 + Z.of_nat n1) n2)) h2 (d0 + Z.of_nat n1)) (seq 0 n2)).
  { rewrite (map_pieces d0 n1 n2 g g1 g2 G1 G2), seq_app, map_app. cbn [Nat.add]. f_equal.
    - apply map_ext_in. intros i I. apply in_seq in I. unfold day_bias. rewrite values_on_app, (outside (d0 + Z.of_nat n1) n2 _ (map _ (hours_index (d0 + Z.of_nat n1) n2))) by (try (intros; lia); apply fst_series).
      rewrite app_nil_r, app_nth1 by lia. reflexivity.
    - pose proof (seq_moved n1 n2 0) as Q. rewrite Nat.add_0_r in Q. rewrite Q.
      rewrite map_map. apply map_ext_in. intros j I. apply in_seq in I. unfold day_bias. replace (d0 + Z.of_nat (n1 + j)) with (d0 + Z.of_nat n1 + Z.of_nat j) by lia.
      rewrite values_on_app, (outside d0 n1 _ (map _ (hours_index d0 n1))) by (try (intros; lia); apply fst_series).
      cbn [app]. f_equal. rewrite app_nth2 by lia. f_equal. lia. }
  rewrite BI. apply map_pieces; intros t I; [rewrite (at_first d0 n1), (G1 t I) by (assumption || (rewrite map_length; apply seq_length))
    |rewrite (at_second d0 n1 n2), (G2 t I) by (assumption || (rewrite map_length; apply seq_length))]; reflexivity.
Qed.
Theorem C140_humidity_equal e d d1 d2 d0 n1 n2 h1 h2 tp1 tp2 tp a0 a1 kr mhp keep :
  two_pieces d d1 d2 d0 n1 n2 -> has_column d1 "hum" h1 -> has_column d2 "hum" h2 ->
  exists o1 o2, disaggregate_humidity e d1 "equal" tp1 a0 a1 kr mhp keep = Ok o1 /\ disaggregate_humidity e d2 "equal" tp2 a0 a1 kr mhp keep = Ok o2 /\
    disaggregate_humidity e d "equal" tp a0 a1 kr mhp keep = Ok (o1 ++ o2).
Proof.
  intros (F1 & F2 & F & J) A B. pose proof (J _ _ _ A B) as C. destruct (column_daily d1 d0 n1 _ _ F1 A) as [_ LA].
  unfold disaggregate_humidity, disaggregate_humidity_gen. cbn [existsb String.eqb Ascii.eqb Bool.eqb orb negb].
  rewrite (raw_equal e d1 d0 n1 h1 tp1 a0 a1 kr mhp F1 A), (raw_equal e d2 _ n2 h2 tp2 a0 a1 kr mhp F2 B), (raw_equal e d d0 _ _ tp a0 a1 kr mhp F C). cbn [bind].
  apply (finish_pieces e d d1 d2 d0 n1 n2 _ _ _ h1 h2 keep (conj F1 (conj F2 (conj F J))) (fun _ => conj A B)); intros t I;
      [rewrite !(at_first d0 n1) by assumption|rewrite !(at_second d0 n1 n2) by assumption]; reflexivity.
Qed.
Print Assumptions C140_humidity_equal.
Theorem C140_humidity_min_max e d d1 d2 d0 n1 n2 hl1 hh1 tl1 th1 hl2 hh2 tl2 th2 f a0 a1 kr mhp h1 h2 keep :
  two_pieces d d1 d2 d0 n1 n2 -> has_column d1 "hum_min" hl1 -> has_column d1 "hum_max" hh1 -> has_column d1 "tmin" tl1 -> has_column d1 "tmax" th1 ->
  has_column d2 "hum_min" hl2 -> has_column d2 "hum_max" hh2 -> has_column d2 "tmin" tl2 -> has_column d2 "tmax" th2 ->
  (keep = true -> has_column d1 "hum" h1 /\ has_column d2 "hum" h2) ->
  let temp d n := Some (map (fun t => (t, f t)) (hours_index d n)) in
  exists o1 o2, disaggregate_humidity e d1 "min_max" (temp d0 n1) a0 a1 kr mhp keep = Ok o1 /\
    disaggregate_humidity e d2 "min_max" (temp (d0 + Z.of_nat n1) n2) a0 a1 kr mhp keep = Ok o2 /\
    disaggregate_humidity e d "min_max" (temp d0 (n1 + n2)%nat) a0 a1 kr mhp keep = Ok (o1 ++ o2).
Proof.
  intros (F1 & F2 & F & J) A1 A2 A3 A4 B1 B2 B3 B4 HK temp.
  pose proof (J _ _ _ A1 B1) as C1. pose proof (J _ _ _ A2 B2) as C2. pose proof (J _ _ _ A3 B3) as C3. pose proof (J _ _ _ A4 B4) as C4.
  destruct (column_daily d1 d0 n1 _ _ F1 A1) as [_ L1], (column_daily d1 d0 n1 _ _ F1 A2) as [_ L2], (column_daily d1 d0 n1 _ _ F1 A3) as [_ L3], (column_daily d1 d0 n1 _ _ F1 A4) as [_ L4].
  unfold disaggregate_humidity, disaggregate_humidity_gen, temp. cbn [existsb String.eqb Ascii.eqb Bool.eqb orb negb].
  rewrite (raw_min_max e d1 d0 n1 _ _ _ _ f a0 a1 kr mhp F1 A1 A2 A3 A4), (raw_min_max e d2 _ n2 _ _ _ _ f a0 a1 kr mhp F2 B1 B2 B3 B4),
    (raw_min_max e d d0 _ _ _ _ _ f a0 a1 kr mhp F C1 C2 C3 C4). cbn [bind].
  apply (finish_pieces e d d1 d2 d0 n1 n2 _ _ _ h1 h2 keep (conj F1 (conj F2 (conj F J))) HK); intros t I;
      [rewrite !(at_first d0 n1) by assumption|rewrite !(at_second d0 n1 n2) by assumption]; reflexivity.
Qed.
Print Assumptions C140_humidity_min_max.

(** methods on the dew point: 'minimal' and 'dewpoint_regression' look at the day only, 'linear_dewpoint_variation' at the following day as well *)
Theorem C140_humidity_dew e d d1 d2 d0 n1 n2 tl1 tl2 f method a0 a1 kr mhp h1 h2 keep :
  two_pieces d d1 d2 d0 n1 n2 -> has_column d1 "tmin" tl1 -> has_column d2 "tmin" tl2 -> method = "minimal" \/ method = "dewpoint_regression" ->
  (keep = true -> has_column d1 "hum" h1 /\ has_column d2 "hum" h2) ->
  let temp d n := Some (map (fun t => (t, f t)) (hours_index d n)) in
  exists o1 o2, disaggregate_humidity e d1 method (temp d0 n1) (Some a0) (Some a1) kr mhp keep = Ok o1 /\
    disaggregate_humidity e d2 method (temp (d0 + Z.of_nat n1) n2) (Some a0) (Some a1) kr mhp keep = Ok o2 /\
    disaggregate_humidity e d method (temp d0 (n1 + n2)%nat) (Some a0) (Some a1) kr mhp keep = Ok (o1 ++ o2).
Proof.
  intros (F1 & F2 & F & J) A B HM HK temp. pose proof (J _ _ _ A B) as C. destruct (column_daily d1 d0 n1 _ _ F1 A) as [_ L1].
  assert (LD : forall x y, length (dew x y tl1) = n1) by (intros; unfold dew; rewrite map_length; exact L1).
  assert (DA : forall x y, dew x y (tl1 ++ tl2) = dew x y tl1 ++ dew x y tl2) by (intros; apply map_app).
  unfold disaggregate_humidity, disaggregate_humidity_gen, temp.
  destruct HM as [->| ->]; cbn [existsb String.eqb Ascii.eqb Bool.eqb orb negb];
    [rewrite (raw_minimal e d1 d0 n1 tl1 f _ _ kr mhp F1 A), (raw_minimal e d2 _ n2 tl2 f _ _ kr mhp F2 B), (raw_minimal e d d0 _ _ f _ _ kr mhp F C)
    |rewrite (raw_regression e d1 d0 n1 tl1 f _ _ kr mhp F1 A), (raw_regression e d2 _ n2 tl2 f _ _ kr mhp F2 B), (raw_regression e d d0 _ _ f _ _ kr mhp F C)];
    cbn [bind]; rewrite DA; apply (finish_pieces e d d1 d2 d0 n1 n2 _ _ _ h1 h2 keep (conj F1 (conj F2 (conj F J))) HK); intros t I;
    [rewrite !(at_first d0 n1) by (assumption || apply LD)|rewrite !(at_second d0 n1 n2) by (assumption || apply LD)
    |rewrite !(at_first d0 n1) by (assumption || apply LD)|rewrite !(at_second d0 n1 n2) by (assumption || apply LD)]; reflexivity.
Qed.
Print Assumptions C140_humidity_dew.

(** the table of month, hour and wet day: a record of which both pieces can be disaggregated *)
Lemma table_pieces {A B} (f : A -> res B) l1 l2 x1 x2 : mapM f l1 = Ok x1 -> mapM f l2 = Ok x2 -> mapM f (l1 ++ l2) = Ok (x1 ++ x2).
Proof.
  revert x1. induction l1 as [|a l IH]; intros x1 H1 H2; cbn in H1 |- *; [injection H1 as <-; exact H2|]. destruct (f a) as [b|]; [|discriminate]. cbn [bind] in *.
  destruct (mapM f l) as [bs|]; [|discriminate]. cbn [bind] in H1. injection H1 as <-. rewrite (IH bs eq_refl H2). reflexivity.
Qed.
Theorem C140_humidity_table e d d1 d2 d0 n1 n2 p1 p2 tp tp1 tp2 a0 a1 kr table o1 o2 :
  two_pieces d d1 d2 d0 n1 n2 -> has_column d1 "precip" p1 -> has_column d2 "precip" p2 -> let method := "month_hour_precip_mean" in
  disaggregate_humidity e d1 method tp1 a0 a1 kr (Some table) false = Ok o1 -> disaggregate_humidity e d2 method tp2 a0 a1 kr (Some table) false = Ok o2 ->
  disaggregate_humidity e d method tp a0 a1 kr (Some table) false = Ok (o1 ++ o2).
Proof.
  intros (F1 & F2 & F & J) A B method. pose proof (J _ _ _ A B) as C.
  destruct (column_daily d1 d0 n1 _ _ F1 A) as [E1 L1]. destruct (column_daily d2 _ n2 _ _ F2 B) as [E2 L2]. destruct (column_daily d d0 _ _ _ F C) as [E L].
  unfold disaggregate_humidity, disaggregate_humidity_gen, method, raw_humidity. cbn [existsb String.eqb Ascii.eqb Bool.eqb orb negb].
  rewrite E1, E2, E. cbn [bind]. rewrite (distribute_daily e d0 n1 _ L1 (proj1 F1)), (distribute_daily e _ n2 _ L2 (proj1 F2)), (distribute_daily e d0 _ _ L (proj1 F)). cbn [bind].
  rewrite (map_pieces d0 n1 n2 _ (at_day d0 p1 NaN) (at_day (d0 + Z.of_nat n1) p2 NaN)); [|intros t I; apply (at_first d0 n1); assumption|intros t I; apply (at_second d0 n1 n2); assumption].
  match goal with |- context [mapM ?g (?l1 ++ ?l2)] => pose proof (table_pieces g l1 l2) as TP; destruct (mapM g l1) as [x1|]; [|discriminate]; destruct (mapM g l2) as [x2|]; [|discriminate];
    rewrite (TP x1 x2 eq_refl eq_refl) end. cbn [bind]. intros H1 H2. injection H1 as <-. injection H2 as <-. rewrite map_app. reflexivity.
Qed.
Print Assumptions C140_humidity_table.

(** ** radiation *)
Lemma scale_pieces d0 n1 n2 p1 p2 g1 g2 : map fst p1 = hours_index d0 n1 -> map fst p2 = hours_index (d0 + Z.of_nat n1) n2 -> length g1 = n1 -> length g2 = n2 ->
  scale (p1 ++ p2) (resample us_day nanmean (p1 ++ p2)) (daily d0 (g1 ++ g2))
  = scale p1 (resample us_day nanmean p1) (daily d0 g1) ++ scale p2 (resample us_day nanmean p2) (daily (d0 + Z.of_nat n1) g2).
Proof.
  intros E1 E2 L1 L2. assert (E : map fst (p1 ++ p2) = hours_index d0 (n1 + n2)) by (rewrite map_app, E1, E2, hours_pieces; reflexivity).
  apply (series_ext d0 (n1 + n2)); [rewrite scale_index; exact E|rewrite map_app, !scale_index, E1, E2, hours_pieces; reflexivity|].
  intros i Hi. rewrite (scale_day (p1 ++ p2) d0 (n1 + n2) (g1 ++ g2) i E) by (rewrite ?app_length; lia). rewrite !values_on_app.
  destruct (Nat.lt_ge_cases i n1) as [H|H].
  - rewrite (outside (d0 + Z.of_nat n1) n2 _ p2 E2) by (intros; lia). rewrite (outside (d0 + Z.of_nat n1) n2 _ (scale p2 _ _)) by (try (intros; lia); rewrite scale_index; exact E2).
    rewrite !app_nil_r, app_nth1 by lia. rewrite (scale_day p1 d0 n1 g1 i E1 L1 H). reflexivity.
  - replace (d0 + Z.of_nat i) with (d0 + Z.of_nat n1 + Z.of_nat (i - n1)) by lia.
    rewrite (outside d0 n1 _ p1 E1) by (intros; lia). rewrite (outside d0 n1 _ (scale p1 _ _)) by (try (intros; lia); rewrite scale_index; exact E1).
    cbn [app]. rewrite app_nth2 by lia. rewrite (scale_day p2 (d0 + Z.of_nat n1) n2 g2 (i - n1) E2 L2) by lia. do 4 f_equal. rewrite L1. reflexivity.
Qed.
Theorem C140_radiation e d d1 d2 d0 n1 n2 g1 g2 (p1 p2 : series xr) st ps1 ps2 mc :
  two_pieces d d1 d2 d0 n1 n2 -> has_column d1 "glob" g1 -> has_column d2 "glob" g2 ->
  map fst p1 = hours_index d0 n1 -> map fst p2 = hours_index (d0 + Z.of_nat n1) n2 ->
  exists o1 o2, disaggregate_radiation e d1 st (Some p1) "pot_rad" ps1 ps2 mc = Ok o1 /\ disaggregate_radiation e d2 st (Some p2) "pot_rad" ps1 ps2 mc = Ok o2 /\
    disaggregate_radiation e d st (Some (p1 ++ p2)) "pot_rad" ps1 ps2 mc = Ok (o1 ++ o2).
Proof.
  intros (F1 & F2 & F & J) A B E1 E2. pose proof (J _ _ _ A B) as C.
  destruct (column_daily d1 d0 n1 _ _ F1 A) as [_ L1]. destruct (column_daily d2 _ n2 _ _ F2 B) as [_ L2].
  do 2 eexists. split; [exact (rad_pot e d1 d0 n1 g1 st p1 ps1 ps2 mc F1 A)|]. split; [exact (rad_pot e d2 _ n2 g2 st p2 ps1 ps2 mc F2 B)|].
  etransitivity; [exact (rad_pot e d d0 _ _ st (p1 ++ p2) ps1 ps2 mc F C)|]. f_equal. apply (scale_pieces d0 n1 n2); assumption.
Qed.
Print Assumptions C140_radiation.
Theorem C140_radiation_course e d d1 d2 d0 n1 n2 g1 g2 st pot ps1 ps2 c f :
  two_pieces d d1 d2 d0 n1 n2 -> has_column d1 "glob" g1 -> has_column d2 "glob" g2 -> has_course c d0 (n1 + n2) f ->
  exists o1 o2, disaggregate_radiation e d1 st pot "mean_course" ps1 ps2 (Some c) = Ok o1 /\ disaggregate_radiation e d2 st pot "mean_course" ps1 ps2 (Some c) = Ok o2 /\
    disaggregate_radiation e d st pot "mean_course" ps1 ps2 (Some c) = Ok (o1 ++ o2).
Proof.
  intros (F1 & F2 & F & J) A B HC. pose proof (J _ _ _ A B) as C.
  destruct (column_daily d1 d0 n1 _ _ F1 A) as [_ L1]. destruct (column_daily d2 _ n2 _ _ F2 B) as [_ L2].
  assert (H1 : has_course c d0 n1 f) by (intros i Hi; apply HC; lia).
  assert (H2 : has_course c (d0 + Z.of_nat n1) n2 f).
  { intros i Hi. replace (d0 + Z.of_nat n1 + Z.of_nat i) with (d0 + Z.of_nat (n1 + i)) by lia. apply HC. lia. }
  pose proof (rad_course e d1 d0 n1 g1 st pot ps1 ps2 c f F1 A H1) as R1. pose proof (rad_course e d2 _ n2 g2 st pot ps1 ps2 c f F2 B H2) as R2.
  pose proof (rad_course e d d0 _ _ st pot ps1 ps2 c f F C HC) as R. cbv zeta in R1, R2, R. rewrite R1, R2, R.
  do 2 eexists. split; [reflexivity|]. split; [reflexivity|]. f_equal. rewrite hours_pieces, map_app.
  apply (scale_pieces d0 n1 n2); try assumption; rewrite map_map; apply map_id.
Qed.
Print Assumptions C140_radiation_course.

(** ** sine methods: the days next to the cut see their neighbour only in the whole record *)
Lemma located_one rise noon delta mmt a b a' b' : located rise noon delta mmt a b -> located rise noon delta mmt a' b' -> a = a' /\ b = b'.
Proof.
  intros H H'. destruct H; inversion H'; subst;
    repeat match goal with A : rounds_to ?r ?x, B : rounds_to ?r ?y |- _ => pose proof (rounds_unique r x y A B); clear B end; lia.
Qed.
Lemma next_first (l1 l2 : list xr) i : (S i < length l1)%nat -> next_day (l1 ++ l2) i = next_day l1 i.
Proof.
  intro H. unfold next_day. rewrite app_length. destruct (Nat.eqb_spec (S i) (length l1 + length l2)); [lia|]. destruct (Nat.eqb_spec (S i) (length l1)); [lia|].
  apply app_nth1. exact H.
Qed.
Lemma prev_first (l1 l2 : list xr) i : (i < length l1)%nat -> prev_day (l1 ++ l2) i = prev_day l1 i.
Proof. intro H. destruct i; cbn [prev_day]; apply app_nth1; lia. Qed.
Lemma next_second (l1 l2 : list xr) j : (j < length l2)%nat -> next_day (l1 ++ l2) (length l1 + j) = next_day l2 j.
Proof.
  intro H. unfold next_day. rewrite app_length. destruct (Nat.eqb_spec (S j) (length l2)) as [E|E].
  - rewrite (proj2 (Nat.eqb_eq _ _)) by lia. rewrite app_nth2 by lia. f_equal. lia.
  - rewrite (proj2 (Nat.eqb_neq _ _)) by lia. rewrite app_nth2 by lia. f_equal. lia.
Qed.
Lemma prev_second (l1 l2 : list xr) j : (0 < j)%nat -> prev_day (l1 ++ l2) (length l1 + j) = prev_day l2 j.
Proof. intro H. destruct j; [lia|]. rewrite Nat.add_succ_r. cbn [prev_day]. rewrite app_nth2 by lia. f_equal. lia. Qed.

(** the hours of a day after the correction and the limits *)
Definition day_result (keep : bool) (x : xr) (w : nat -> xr) : list xr :=
  map (fun k => clip1 n0 (n_ofZ 100) (if keep then (w k - (let b := (nanmean (map w (seq 0 24)) - x)%num in if n_isnan b then n0 else b))%num else w k)) (seq 0 24).
Lemma day_result_ext keep x w w' : (forall k, (k < 24)%nat -> w k = w' k) -> day_result keep x w = day_result keep x w'.
Proof.
  intro H. unfold day_result. assert (E : map w (seq 0 24) = map w' (seq 0 24)) by (apply map_ext_in; intros k I; apply in_seq in I; apply H; lia).
  rewrite E. apply map_ext_in. intros k I. apply in_seq in I. rewrite H by lia. reflexivity.
Qed.
Lemma finish_days e d d0 n (g : Z -> xr) h (keep : bool) : day_frame d d0 n -> (keep = true -> has_column d "hum" h) ->
  exists o : series xr,
    (let* h := (if keep then preserve_mean e d (map (fun t => (t, g t)) (hours_index d0 n)) else Ok (map (fun t => (t, g t)) (hours_index d0 n))) in
     Ok (map (fun p => (fst p, clip1 n0 (n_ofZ 100) (snd p))) h)) = Ok o /\ map fst o = hours_index d0 n /\
    forall i, (i < n)%nat -> values_on (d0 + Z.of_nat i) o = day_result keep (nth i h NaN) (fun k => g (stamp (d0 + Z.of_nat i) k)).
Proof.
  intros F HK. destruct keep.
  - rewrite (preserve_ok e d d0 n h g F (HK eq_refl)). cbn [bind]. rewrite clip_series. eexists. split; [reflexivity|]. split; [apply fst_series|].
    intros i Hi. rewrite values_on_map_hours by exact Hi. apply map_ext_in. intros k I. apply in_seq in I. rewrite at_day_stamp by lia.
    rewrite (nth_map_in _ (seq 0 _) _ O NaN) by (rewrite seq_length; lia). rewrite seq_nth by lia. cbn [Nat.add]. unfold day_bias. rewrite values_on_map_hours by exact Hi. reflexivity.
  - cbn [bind]. rewrite clip_series. eexists. split; [reflexivity|]. split; [apply fst_series|]. intros i Hi. rewrite values_on_map_hours by exact Hi. reflexivity.
Qed.
(** the last day before the cut sees the following day only in the whole record *)
Theorem C140_humidity_linear e d d1 d2 d0 n1 n2 tl1 tl2 f a0 a1 kr mhp h1 h2 keep :
  two_pieces d d1 d2 d0 n1 n2 -> has_column d1 "tmin" tl1 -> has_column d2 "tmin" tl2 -> kr = 6 \/ kr = 12 ->
  (keep = true -> has_column d1 "hum" h1 /\ has_column d2 "hum" h2) ->
  let temp d n := Some (map (fun t => (t, f t)) (hours_index d n)) in let method := "linear_dewpoint_variation" in
  exists o1 o2 o, disaggregate_humidity e d1 method (temp d0 n1) (Some a0) (Some a1) (Some kr) mhp keep = Ok o1 /\
    disaggregate_humidity e d2 method (temp (d0 + Z.of_nat n1) n2) (Some a0) (Some a1) (Some kr) mhp keep = Ok o2 /\
    disaggregate_humidity e d method (temp d0 (n1 + n2)%nat) (Some a0) (Some a1) (Some kr) mhp keep = Ok o /\
    map fst o = map fst (o1 ++ o2) /\
    forall i, (i < n1 + n2)%nat -> S i <> n1 -> values_on (d0 + Z.of_nat i) o = values_on (d0 + Z.of_nat i) (o1 ++ o2).
Proof.
  intros (F1 & F2 & F & J) A B HR HK temp method. pose proof (J _ _ _ A B) as C.
  destruct (column_daily d1 d0 n1 _ _ F1 A) as [_ L1]. destruct (column_daily d2 _ n2 _ _ F2 B) as [_ L2].
  assert (LD1 : length (dew a0 a1 tl1) = n1) by (unfold dew; rewrite map_length; exact L1).
  assert (LD2 : length (dew a0 a1 tl2) = n2) by (unfold dew; rewrite map_length; exact L2).
  assert (DA : dew a0 a1 (tl1 ++ tl2) = dew a0 a1 tl1 ++ dew a0 a1 tl2) by apply map_app.
  unfold disaggregate_humidity, disaggregate_humidity_gen, temp, method. cbn [existsb String.eqb Ascii.eqb Bool.eqb orb negb].
  rewrite (raw_linear e d1 d0 n1 tl1 f a0 a1 kr mhp F1 A HR), (raw_linear e d2 _ n2 tl2 f a0 a1 kr mhp F2 B HR), (raw_linear e d d0 _ _ f a0 a1 kr mhp F C HR).
  cbv beta iota delta [bind]. rewrite DA. clear DA C temp method. revert LD1 LD2. generalize (dew a0 a1 tl1), (dew a0 a1 tl2). intros v1 v2 LD1 LD2.
  set (g := fun (D : Z) (v : list xr) (n : nat) (t : Z) =>
    let x := at_day D v NaN t in let y := at_day D (map (next_day v) (seq 0 n)) NaN t in
    let td := (x + (n_ofZ (hour_of t) / n_ofZ 24 * (y - x) + wave_x kr (hour_of t)))%num in (n_ofZ 100 * saturation_x td / saturation_x (f t))%num).
  destruct (finish_days e d1 d0 n1 (g d0 v1 n1) h1 keep F1 (fun K => proj1 (HK K))) as (o1 & E1 & I1 & V1).
  destruct (finish_days e d2 _ n2 (g (d0 + Z.of_nat n1) v2 n2) h2 keep F2 (fun K => proj2 (HK K))) as (o2 & E2 & I2 & V2).
  destruct (finish_days e d d0 _ (g d0 (v1 ++ v2) (n1 + n2)%nat) (h1 ++ h2) keep F (fun K => J _ _ _ (proj1 (HK K)) (proj2 (HK K)))) as (o & E & I & V).
  exists o1, o2, o. split; [exact E1|]. split; [exact E2|]. split; [exact E|]. split; [rewrite map_app, I, I1, I2; apply hours_pieces|].
  assert (HL : keep = true -> length h1 = n1) by (intro K; exact (proj2 (column_daily d1 d0 n1 _ _ F1 (proj1 (HK K))))).
  assert (X : forall x x' w, (keep = true -> x = x') -> day_result keep x w = day_result keep x' w) by (intros x x' w Q; unfold day_result; destruct keep; [rewrite (Q eq_refl)|]; reflexivity).
  intros i Hi H1. rewrite values_on_app, (V i Hi). destruct (Nat.lt_ge_cases i n1) as [H|H].
  - rewrite (outside (d0 + Z.of_nat n1) n2 _ o2 I2) by (intros; lia). rewrite app_nil_r, (V1 i H). rewrite (X _ (nth i h1 NaN)) by (intro K; apply app_nth1; rewrite (HL K); exact H).
    apply day_result_ext. intros k Hk. unfold g. cbv zeta. rewrite !at_day_stamp by exact Hk.
    rewrite !(nth_map_in _ (seq 0 _) i O NaN) by (rewrite seq_length; lia). rewrite !seq_nth by lia. cbn [Nat.add].
    rewrite next_first, app_nth1 by lia. reflexivity.
  - set (j := (i - n1)%nat). assert (EJ : i = (n1 + j)%nat) by (unfold j; lia). assert (HJ : (j < n2)%nat) by (unfold j; lia). clearbody j. subst i.
    rewrite (outside d0 n1 _ o1 I1) by (intros; lia). cbn [app]. replace (d0 + Z.of_nat (n1 + j)) with (d0 + Z.of_nat n1 + Z.of_nat j) by lia. rewrite (V2 j HJ).
    rewrite (X _ (nth j h2 NaN)) by (intro K; rewrite app_nth2 by (rewrite (HL K); lia); rewrite (HL K); f_equal; lia).
    apply day_result_ext. intros k Hk. unfold g. cbv zeta.
    rewrite (at_day_stamp (d0 + Z.of_nat n1) v2), (at_day_stamp (d0 + Z.of_nat n1) (map (next_day v2) (seq 0 n2))) by exact Hk.
    replace (d0 + Z.of_nat n1 + Z.of_nat j) with (d0 + Z.of_nat (n1 + j)) by lia. rewrite !at_day_stamp by exact Hk.
    rewrite !(nth_map_in _ (seq 0 _) _ O NaN) by (rewrite seq_length; lia). rewrite !seq_nth by lia. cbn [Nat.add].
    rewrite <- LD1, next_second, app_nth2 by lia. replace (length v1 + j - length v1)%nat with j by lia. reflexivity.
Qed.
Print Assumptions C140_humidity_linear.

Theorem C140_sine e d d1 d2 d0 n1 n2 lo1 hi1 t1 lo2 hi2 t2 method mmt modn md delta mc st st1 st2 rise1 noon1 rise2 noon2 :
  two_pieces d d1 d2 d0 n1 n2 -> has_column d1 "tmin" lo1 -> has_column d1 "tmax" hi1 -> has_column d1 "temp" t1 ->
  has_column d2 "tmin" lo2 -> has_column d2 "tmax" hi2 -> has_column d2 "temp" t2 ->
  method = "sine_min_max" \/ method = "sine_mean" \/ method = "sine" -> SpecTemp.usable mmt md delta ->
  sun_days st1 d0 rise1 noon1 -> length rise1 = n1 -> sun_days st2 (d0 + Z.of_nat n1) rise2 noon2 -> length rise2 = n2 ->
  sun_days st d0 (rise1 ++ rise2) (noon1 ++ noon2) ->
  exists o1 o2 o, disaggregate_temperature e d1 method mmt modn md mc (Some st1) = Ok o1 /\
    disaggregate_temperature e d2 method mmt modn md mc (Some st2) = Ok o2 /\
    disaggregate_temperature e d method mmt modn md mc (Some st) = Ok o /\
    map fst o = map fst (o1 ++ o2) /\ (method = "sine_mean" -> o = o1 ++ o2) /\
    forall i, (i < n1 + n2)%nat -> S i <> n1 -> i <> n1 -> values_on (d0 + Z.of_nat i) o = values_on (d0 + Z.of_nat i) (o1 ++ o2).
Proof.
  intros ((NE1 & F1) & (NE2 & F2) & (NE & F) & J) A1 A2 A3 B1 B2 B3 HM HU S1 R1 S2 R2 SS.
  destruct (J _ _ _ A1 B1) as [C1 L1], (J _ _ _ A2 B2) as [C2 L2], (J _ _ _ A3 B3) as [C3 L3].
  destruct A1 as [A1 LA1], A2 as [A2 LA2], A3 as [A3 LA3], B1 as [B1 LB1], B2 as [B2 LB2], B3 as [B3 LB3].
  rewrite F1, days_length in LA1, LA2, LA3. rewrite F2, days_length in LB1, LB2, LB3. rewrite F, days_length in L1, L2, L3.
  assert (T1 : temp_frame d1 d0 lo1 hi1 t1) by (repeat split; try assumption; congruence).
  assert (T2 : temp_frame d2 (d0 + Z.of_nat n1) lo2 hi2 t2) by (repeat split; try assumption; congruence).
  assert (T : temp_frame d d0 (lo1 ++ lo2) (hi1 ++ hi2) (t1 ++ t2)) by (repeat split; try assumption; congruence).
  assert (X1 : t1 <> []) by (intros ->; cbn in LA3; congruence). assert (X2 : t2 <> []) by (intros ->; cbn in LB3; congruence).
  assert (X : t1 ++ t2 <> []) by (destruct t1; [contradiction|discriminate]).
  destruct (sine_hours e d1 d0 lo1 hi1 t1 method mmt modn md delta mc st1 rise1 noon1 X1 T1 HM S1 (eq_trans R1 (eq_sym LA3)) HU) as (o1 & E1 & I1 & V1).
  destruct (sine_hours e d2 _ lo2 hi2 t2 method mmt modn md delta mc st2 rise2 noon2 X2 T2 HM S2 (eq_trans R2 (eq_sym LB3)) HU) as (o2 & E2 & I2 & V2).
  assert (RL : length (rise1 ++ rise2) = length (t1 ++ t2)) by (rewrite !app_length; lia).
  destruct (sine_hours e d d0 _ _ _ method mmt modn md delta mc st _ _ X T HM SS RL HU) as (o & E & I & V).
  exists o1, o2, o. split; [exact E1|]. split; [exact E2|]. split; [exact E|]. rewrite LA3 in I1. rewrite LB3 in I2. rewrite L3 in I.
  assert (IA : map fst (o1 ++ o2) = hours_index d0 (n1 + n2)) by (rewrite map_app, I1, I2; symmetry; apply hours_pieces). split; [rewrite I, IA; reflexivity|].
  assert (N1 : length noon1 = n1) by (rewrite (proj1 (proj2 S1)); exact R1).
  cut (forall i, (i < n1 + n2)%nat -> method = "sine_mean" \/ (S i <> n1 /\ i <> n1) -> values_on (d0 + Z.of_nat i) o = values_on (d0 + Z.of_nat i) (o1 ++ o2)).
  { intro G. split; [intro M; apply (series_ext d0 (n1 + n2) _ _ I IA); intros i Hi; apply G; auto|intros i Hi H1 H2; apply G; auto]. }
  intros i Hi H12. rewrite values_on_app. rewrite L3 in V. rewrite LA3 in V1. rewrite LB3 in V2. destruct (V i Hi) as (mins & maxs & LO & ->).
  destruct (Nat.lt_ge_cases i n1) as [H|H].
  - rewrite (outside (d0 + Z.of_nat n1) n2 _ o2 I2) by (intros; lia). rewrite app_nil_r. destruct (V1 i H) as (mins1 & maxs1 & LO1 & ->).
    rewrite !app_nth1 in LO by lia. destruct (located_one _ _ _ _ _ _ _ _ LO LO1) as [Q1 Q2]. apply map_ext. intro h. unfold mkrow.
    rewrite Q1, Q2, !app_nth1 by lia. destruct H12 as [->|[H1 H2]]; [reflexivity|]. rewrite !next_first, !prev_first by lia. reflexivity.
  - set (j := (i - n1)%nat). assert (EJ : i = (n1 + j)%nat) by (unfold j; lia). assert (HJ : (j < n2)%nat) by (unfold j; lia).
    rewrite EJ in *. clear EJ. replace (d0 + Z.of_nat (n1 + j)) with (d0 + Z.of_nat n1 + Z.of_nat j) in * by lia.
    rewrite (outside d0 n1 _ o1 I1) by (intros; lia). cbn [app]. destruct (V2 j HJ) as (mins2 & maxs2 & LO2 & ->).
    rewrite !app_nth2 in LO by lia. rewrite R1, N1 in LO. replace (n1 + j - n1)%nat with j in LO by lia.
    destruct (located_one _ _ _ _ _ _ _ _ LO LO2) as [Q1 Q2]. apply map_ext. intro h. unfold mkrow.
    assert (NT : forall l1 l2 : list xr, length l1 = n1 -> nth (n1 + j) (l1 ++ l2) NaN = nth j l2 NaN) by (intros l1 l2 <-; rewrite app_nth2 by lia; f_equal; lia).
    rewrite (NT lo1 lo2 LA1), (NT hi1 hi2 LA2), (NT t1 t2 LA3), Q1, Q2. destruct H12 as [->|[H1 H2]]; [reflexivity|]. assert (PJ : (0 < j)%nat) by lia.
    assert (NX : forall l1 l2 : list xr, length l1 = n1 -> length l2 = n2 ->
       next_day (l1 ++ l2) (n1 + j) = next_day l2 j /\ prev_day (l1 ++ l2) (n1 + j) = prev_day l2 j).
    { intros l1 l2 <- K2. split; [apply next_second; lia|apply prev_second; lia]. }
    destruct (NX lo1 lo2 LA1 LB1) as (-> & ->). destruct (NX hi1 hi2 LA2 LB2) as (-> & ->). reflexivity.
Qed.
Print Assumptions C140_sine.

(** ** radiation from the temperature range depends on the days that follow *)
Theorem C140_temperature_range_refuted :
  exists (lo hi pot : Z -> R) o1 o2 o,
    let estimate days := bristow_campbell (PScalar (Fin (3 / 4)) (Fin (12 / 5))) (on_days days (fun D => Fin (lo D))) (on_days days (fun D => Fin (hi D)))
                           (on_days days (fun D => Fin (pot D))) in
    estimate [11323] = Ok o1 /\ estimate [11324] = Ok o2 /\ estimate [11323; 11324] = Ok o /\ o <> o1 ++ o2.
Proof.
  set (lo := fun D => if D =? 11323 then 0%R else 20%R). set (hi := fun D => if D =? 11323 then 10%R else 30%R). set (pot := fun _ : Z => 100%R).
  set (ps := PScalar (Fin (3 / 4)) (Fin (12 / 5))).
  assert (HF : forall days D, In D days -> let m := month_of_day D in params_in (any_of ps) m (Fin (3 / 4)) (Fin (12 / 5)) /\ (12 / 5 <> 0)%R) by (intros; split; [split; reflexivity|lra]).
  assert (HP : forall days D, In D days -> entry_of (D * 86400000000) (on_days days (fun D => Fin (pot D))) = Some (Fin (pot D))).
  { intros days D I. change (@entry_of xr) with (@lookup xr). change 86400000000 with us_day. rewrite lookup_on, (proj2 (recorded_In _ _) I). reflexivity. }
  assert (R1 : record_of [11323]) by (split; [discriminate|repeat constructor]).
  assert (R2 : record_of [11324]) by (split; [discriminate|repeat constructor]).
  assert (R : record_of [11323; 11324]) by (split; [discriminate|repeat constructor]).
  destruct (C139_exact_days ps [11323] lo hi pot (fun _ => 3 / 4)%R (fun _ => 12 / 5)%R _ R1 (HP _) (HF _)) as (v1 & E1 & _ & V1).
  destruct (C139_exact_days ps [11324] lo hi pot (fun _ => 3 / 4)%R (fun _ => 12 / 5)%R _ R2 (HP _) (HF _)) as (v2 & E2 & _).
  pose proof (C139_any_days xexp xpow nanmean (any_of ps) (fun _ => Fin (3 / 4)) (fun _ => Fin (12 / 5)) [11323; 11324] (fun D => Fin (lo D)) (fun D => Fin (hi D)) _ (fun D => Fin (pot D)) R (HP _)
                (fun D I => proj1 (HF _ D I))) as E.
  rewrite <- C124_same_bristow in E.
  exists lo, hi, pot. do 3 eexists. cbv zeta. split; [exact E1|]. split; [exact E2|]. split; [exact E|].
  assert (S1 : swing [11323] lo hi 11323 = 10%R) by (unfold swing, lo, hi; cbn [last]; rewrite Z.eqb_refl; lra).
  specialize (V1 11323 (or_introl eq_refl) (or_introl eq_refl)). rewrite S1 in V1. specialize (V1 ltac:(lra)). cbv zeta in V1.
  intro Q. cbn [on_days map app] in Q.
  match type of Q with (_, ?x) :: _ = _ => assert (Q1 : x = v1 11323) by congruence end. clear Q. rewrite V1 in Q1.
  assert (S0 : range_on [11323; 11324] (fun D => Fin (lo D)) (fun D => Fin (hi D)) 11323 = Fin 0).
  { pose proof (swing_range [11323; 11324] lo hi 11323 eq_refl) as H. unfold PropsGapDays.xrange in H. rewrite H. f_equal. unfold swing, lo, hi. cbn [last].
    change (11323 =? 11324) with false. change (11323 + 1 =? 11323) with false. rewrite Z.eqb_refl. lra. }
  rewrite S0 in Q1.
  assert (P0 : xpow (Fin 0) (Fin (12 / 5)) = Fin 0).
  { cbn. unfold Reqb, Rltb. destruct (Req_EM_T (12 / 5) 0); [lra|]. destruct (Rlt_dec 0 0); [lra|]. destruct (Req_EM_T 0 0); [|lra]. destruct (Rlt_dec 0 (12 / 5)); [reflexivity|lra]. }
  rewrite P0, !lit_xr in Q1 by lia. clear - Q1. revert Q1. generalize (Rmean (map (swing [11323] lo hi) (usable [11323] (month_of_day 11323)))).
  assert (FA : exists q, nanmean (map (range_on [11323; 11324] (fun D => Fin (lo D)) (fun D => Fin (hi D))) (filter (fun E => month_of_day E =? month_of_day 11323) [11323; 11324])) = Fin q).
  { eexists. apply (nanmean_numeric _ (month_numeric [11323; 11324] lo hi _)). rewrite (month_fins [11323; 11324] lo hi).
    change (filter _ _) with [11323; 11324]. discriminate. }
  destruct FA as [q FA]. rewrite FA. clear. intros r Q.
  assert (POS : (0 < bristow_formula (3 / 4) (12 / 5) r 10 (pot 11323%Z))%R).
  { unfold bristow_formula, pot. set (B := (36 / 1000 * exp (- (154 / 1000) * r))%R). assert (HB : (0 < B)%R) by (unfold B; pose proof (exp_pos (- (154 / 1000) * r)); lra).
    assert (HW : (0 < Rpower 10 (12 / 5))%R) by apply exp_pos. assert (HE : (exp (- B * Rpower 10 (12 / 5)) < 1)%R).
    { rewrite <- exp_0. apply exp_increasing. pose proof (Rmult_lt_0_compat _ _ HB HW). lra. }
    lra. }
  assert (Z : forall x : R, (x * 0)%R = 0%R) by (intro; ring).
  revert POS Q. generalize (bristow_formula (3 / 4) (12 / 5) r 10 (pot 11323)). intros y POS Q.
  cbn in Q. injection Q as Q. rewrite Z, exp_0 in Q. lra.
Qed.
Print Assumptions C140_temperature_range_refuted.

(** one day and two days with eight columns *)
Definition columns : list (string * list xr * list xr) :=
  [("tmin", [Fin 1], [Fin 2; NaN]); ("tmax", [Fin 9], [Fin 8; Fin 7]); ("temp", [Fin 5], [Fin 5; Fin 4]); ("glob", [Fin 100], [NaN; Fin 90]);
   ("precip", [Fin 3], [NaN; Fin 0]); ("hum", [Fin 70], [Fin 80; NaN]); ("hum_min", [Fin 60], [NaN; Fin 50]); ("hum_max", [Fin 90], [Fin 95; Fin 90])].
Definition piece (d0 : Z) (n : nat) (f : list xr * list xr -> list xr) : dframe xr :=
  Build_dframe (daily_index d0 n) (map (fun q => (fst (fst q), f (snd (fst q), snd q))) columns).
Example C140_met :
  let d1 := piece 11323 1 fst in let d2 := piece 11324 2 snd in let d := piece 11323 3 (fun q => fst q ++ snd q) in
  two_pieces d d1 d2 11323 1 2 /\ has_column d1 "tmin" [Fin 1] /\ has_column d2 "tmin" [Fin 2; NaN] /\ has_column d1 "glob" [Fin 100] /\ has_column d2 "glob" [NaN; Fin 90] /\
  has_course [(1, hour_column (fun _ => 1%R))] 11323 3 (fun _ _ => 1%R).
Proof.
  cbv zeta. split; [|repeat split].
  - split; [split; [discriminate|reflexivity]|]. split; [split; [discriminate|reflexivity]|]. split; [split; [discriminate|reflexivity]|].
    intros c l1 l2 [A LA] [B LB]. unfold has_column, piece, columns in *. cbv beta iota zeta delta [map Frame.f_cols Frame.f_index fst snd Frame.assoc] in A, B, LA, LB |- *.
    split; [|rewrite app_length, LA, LB; reflexivity].
    clear LA LB. revert A B.
    repeat match goal with |- context [String.eqb ?a ?b] => destruct (String.eqb a b); [intros A B; injection A as <-; injection B as <-; reflexivity|] end. intro A. discriminate A.
  - intros i Hi. assert (H : i = 0%nat \/ i = 1%nat \/ i = 2%nat) by lia. destruct H as [->|[->| ->]]; reflexivity.
Qed.
Definition even_sun (d0 : Z) (n : nat) : sun_table :=
  map (fun t => (t, {| sunrise := Fin 6; sunnoon := Fin 12; sunset := Fin 18; daylength := Fin 12 |})) (daily_index d0 n).
Example C140_sine_met :
  sun_days (even_sun 11323 1) 11323 [6%R] [12%R] /\ sun_days (even_sun 11324 2) 11324 [6; 6]%R [12; 12]%R /\
  sun_days (even_sun 11323 3) 11323 ([6] ++ [6; 6])%R ([12] ++ [12; 12])%R /\ SpecTemp.usable "sun_loc" None (fun _ => 0%R).
Proof.
  assert (LONG : forall d0 n, Forall (fun p => exists r, daylength (snd p) = Fin r /\ (3 <= r)%R) (even_sun d0 n)).
  { intros d0 n. apply Forall_forall. intros p I. apply in_map_iff in I as (t & <- & _). exists 12%R. split; [reflexivity|lra]. }
  repeat (split; [split; [reflexivity|]; split; [reflexivity|]; split; [reflexivity|]; split; [reflexivity|apply LONG]|]). right. left. reflexivity.
Qed.
(** a table for January: dry and wet days *)
Definition january (dry wet : xr) : list (mhp_key * xr) :=
  flat_map (fun h => [((1, Z.of_nat h, false), dry); ((1, Z.of_nat h, true), wet)]) (seq 0 24).
Lemma mapM_each {A B} (f : A -> res B) l : (forall a, In a l -> exists b, f a = Ok b) -> exists x, mapM f l = Ok x.
Proof.
  induction l as [|a l IH]; intro H; [exists []; reflexivity|]. destruct (H a (or_introl eq_refl)) as [b E]. destruct IH as [x E']; [intros; apply H; right; assumption|].
  exists (b :: x). cbn. rewrite E, E'. reflexivity.
Qed.
Lemma january_ok e d day n p tp a0 a1 kr dry wet : day_frame d day n -> has_column d "precip" p -> (forall i, (i < n)%nat -> 11323 <= day + Z.of_nat i < 11326) ->
  exists o, disaggregate_humidity e d "month_hour_precip_mean" tp a0 a1 kr (Some (january dry wet)) false = Ok o.
Proof.
  intros F A H. destruct (column_daily d day n _ _ F A) as [E L].
  unfold disaggregate_humidity, disaggregate_humidity_gen, raw_humidity. cbn [existsb String.eqb Ascii.eqb Bool.eqb orb negb].
  rewrite E. cbn [bind]. rewrite (distribute_daily e day n _ L (proj1 F)). cbn [bind].
  match goal with |- context [mapM ?g ?l] => destruct (mapM_each g l) as [x ->] end; [|cbn [bind]; eexists; reflexivity].
  intros q I. apply in_map_iff in I as (t & <- & I). apply in_hours in I as (i & h & Hi & Hh & ->). cbn [fst snd]. specialize (H i Hi).
  rewrite stamp_hour, stamp_month by exact Hh. assert (M : month_of_day (day + Z.of_nat i) = 1).
  { assert (Q : day + Z.of_nat i = 11323 \/ day + Z.of_nat i = 11324 \/ day + Z.of_nat i = 11325) by lia. destruct Q as [->|[->| ->]]; reflexivity. }
  rewrite M. generalize (at_day day p NaN (stamp (day + Z.of_nat i) h) >? n0)%num. intro w.
  do 24 (destruct h as [|h]; [destruct w; eexists; reflexivity|]). lia.
Qed.
Example C140_table_met e a0 a1 kr dry wet : let d1 := piece 11323 1 fst in let d2 := piece 11324 2 snd in
  has_column d1 "precip" [Fin 3] /\ has_column d2 "precip" [NaN; Fin 0] /\
  (exists o1, disaggregate_humidity e d1 "month_hour_precip_mean" None a0 a1 kr (Some (january dry wet)) false = Ok o1) /\
  (exists o2, disaggregate_humidity e d2 "month_hour_precip_mean" None a0 a1 kr (Some (january dry wet)) false = Ok o2).
Proof.
  cbv zeta. destruct C140_met as ((F1 & F2 & _) & _).
  assert (P1 : has_column (piece 11323 1 fst) "precip" [Fin 3]) by (split; reflexivity).
  assert (P2 : has_column (piece 11324 2 snd) "precip" [NaN; Fin 0]) by (split; reflexivity).
  split; [exact P1|]. split; [exact P2|]. split; [apply (january_ok e _ 11323 1 _ _ _ _ _ _ _ F1 P1)|apply (january_ok e _ 11324 2 _ _ _ _ _ _ _ F2 P2)]; intros; lia.
Qed.
Example C140_humidity_met : let d1 := piece 11323 1 fst in let d2 := piece 11324 2 snd in
  has_column d1 "hum" [Fin 70] /\ has_column d2 "hum" [Fin 80; NaN] /\ has_column d1 "hum_min" [Fin 60] /\ has_column d2 "hum_min" [NaN; Fin 50] /\
  has_column d1 "hum_max" [Fin 90] /\ has_column d2 "hum_max" [Fin 95; Fin 90].
Proof. repeat split. Qed.
