(** Time stamps and the proleptic Gregorian calendar (pandas naive Timestamps).

    A time stamp is an integer number of microseconds since 1970-01-01T00:00
    (pandas uses nanoseconds; melodist never needs anything below 42187500 us). *)
From Coq Require Import ZArith List Lia Bool.
Import ListNotations.
Open Scope Z_scope.

Definition us_second : Z := 1000000.
Definition us_minute : Z := 60000000.
Definition us_hour   : Z := 3600000000.
Definition us_day    : Z := 86400000000.

(** calendar date as a day number ([Timestamp.date()]) and time-of-day fields *)
Definition date_of   (t : Z) : Z := t / us_day.
Definition tod       (t : Z) : Z := t mod us_day.
Definition hour_of   (t : Z) : Z := tod t / us_hour.
Definition minute_of (t : Z) : Z := tod t mod us_hour / us_minute.
Definition second_of (t : Z) : Z := tod t mod us_minute / us_second.
(** sub-minute-of-hour rest: everything below the hour *)
Definition below_hour (t : Z) : Z := tod t mod us_hour.

(** [Timestamp.replace(hour=h)] *)
Definition replace_hour (t h : Z) : Z := date_of t * us_day + h * us_hour + below_hour t.
(** [Timestamp.replace(hour=23, minute=59, second=59)] (microseconds kept) *)
Definition replace_hms (t h m s : Z) : Z :=
  date_of t * us_day + h * us_hour + m * us_minute + s * us_second + tod t mod us_second.

(** midnight of a day number *)
Definition midnight (d : Z) : Z := d * us_day.
Definition is_midnight (t : Z) : bool := tod t =? 0.

(** ** year, month, day of a day number (days since 1970-01-01) *)
Definition era_of (d : Z) : Z := (d + 719468) / 146097.
Definition doe_of (d : Z) : Z := (d + 719468) mod 146097.
Definition yoe_of_doe (doe : Z) : Z :=
  (doe - doe / 1460 + doe / 36524 - doe / 146096) / 365.
Definition doy_of_doe (doe : Z) : Z :=
  let yoe := yoe_of_doe doe in doe - (365 * yoe + yoe / 4 - yoe / 100).
Definition mp_of_doe (doe : Z) : Z := (5 * doy_of_doe doe + 2) / 153.

Definition month_of_day (d : Z) : Z :=
  let mp := mp_of_doe (doe_of d) in if mp <? 10 then mp + 3 else mp - 9.
Definition dom_of_day (d : Z) : Z :=
  let doe := doe_of d in doy_of_doe doe - (153 * mp_of_doe doe + 2) / 5 + 1.
Definition year_of_day (d : Z) : Z :=
  let y := yoe_of_doe (doe_of d) + era_of d * 400 in
  if month_of_day d <=? 2 then y + 1 else y.

(** inverse: the day number of a civil date *)
Definition day_of_civil (y m d : Z) : Z :=
  let y' := if m <=? 2 then y - 1 else y in
  let era := y' / 400 in
  let yoe := y' mod 400 in
  let mp := if 2 <? m then m - 3 else m + 9 in
  let doy := (153 * mp + 2) / 5 + d - 1 in
  era * 146097 + (yoe * 365 + yoe / 4 - yoe / 100 + doy) - 719468.

(** [Timestamp.month], [.day], [.year], [.dayofyear] *)
Definition month_of (t : Z) : Z := month_of_day (date_of t).
Definition dom_of   (t : Z) : Z := dom_of_day (date_of t).
Definition year_of  (t : Z) : Z := year_of_day (date_of t).
Definition doy_of_day (d : Z) : Z := d - day_of_civil (year_of_day d) 1 1 + 1.

(** ** facts *)
Lemma tod_range t : 0 <= tod t < us_day.
Proof. unfold tod, us_day; apply Z.mod_pos_bound; lia. Qed.

Lemma hour_range t : 0 <= hour_of t < 24.
Proof.
  pose proof (tod_range t). unfold hour_of, us_hour, us_day in *.
  split; [apply Z.div_pos|apply Z.div_lt_upper_bound]; lia.
Qed.

Lemma date_midnight d : date_of (midnight d) = d.
Proof. unfold date_of, midnight, us_day. apply Z.div_mul; lia. Qed.

Lemma is_midnight_spec t : is_midnight t = true <-> t = midnight (date_of t).
Proof.
  unfold is_midnight, midnight, tod, date_of, us_day. rewrite Z.eqb_eq.
  pose proof (Z.div_mod t 86400000000 ltac:(lia)). lia.
Qed.

Lemma date_hour_split d h r :
  0 <= h < 24 -> 0 <= r < us_hour ->
  date_of (midnight d + h * us_hour + r) = d /\ hour_of (midnight d + h * us_hour + r) = h
  /\ below_hour (midnight d + h * us_hour + r) = r.
Proof.
  intros Hh Hr.
  unfold date_of, hour_of, below_hour, tod, midnight, us_day, us_hour in *.
  assert (E : (d * 86400000000 + h * 3600000000 + r) / 86400000000 = d).
  { symmetry; apply Z.div_unique with (r := h * 3600000000 + r); lia. }
  assert (M : (d * 86400000000 + h * 3600000000 + r) mod 86400000000 = h * 3600000000 + r).
  { symmetry; apply Z.mod_unique with (q := d); lia. }
  rewrite M; split; [exact E|split].
  - symmetry; apply Z.div_unique with (r := r); lia.
  - symmetry; apply Z.mod_unique with (q := h); lia.
Qed.

Lemma date_hour d h : 0 <= h < 24 ->
  date_of (midnight d + h * us_hour) = d /\ hour_of (midnight d + h * us_hour) = h.
Proof.
  intro Hh. destruct (date_hour_split d h 0 Hh) as (A & B & _); [unfold us_hour; lia|].
  rewrite Z.add_0_r in A, B; auto.
Qed.

(** consecutive integers *)
Fixpoint zseq (start : Z) (n : nat) : list Z :=
  match n with O => [] | S n' => start :: zseq (start + 1) n' end.

Lemma in_zseq n : forall s x, In x (zseq s n) <-> s <= x < s + Z.of_nat n.
Proof.
  induction n as [|n IH]; intros s x.
  - cbn [zseq In]. split; [tauto|lia].
  - cbn [zseq In]. rewrite IH. lia.
Qed.

(** year of the 400-year era and day of the (March-based) year *)
Lemma yoe_facts : forall doe, 0 <= doe < 146097 ->
  let y := (doe - doe / 1460 + doe / 36524 - doe / 146096) / 365 in
  0 <= y <= 399 /\ 0 <= doe - (365 * y + y / 4 - y / 100) <= 365.
Proof.
  intros doe H. cbv zeta.
  assert (Hc : exists c, 0 <= c <= 3 /\ 36524 * c <= doe /\ (doe < 36524 * c + 36524 \/ doe = 146096)).
  { destruct (Z.eq_dec doe 146096); [exists 3; lia|]. exists (doe / 36524). pose proof (Z.div_mod doe 36524 ltac:(lia)). pose proof (Z.mod_pos_bound doe 36524 ltac:(lia)). lia. }
  destruct Hc as (c & Hc & Hl & [Hu|Hu]).
  2: subst; vm_compute; intuition congruence.
  assert (Hc' : c = 0 \/ c = 1 \/ c = 2 \/ c = 3) by lia.
  replace (doe / 36524) with c by (apply Z.div_unique with (r := doe - 36524 * c); lia).
  replace (doe / 146096) with 0 by (apply Z.div_unique with (r := doe); lia).
  pose proof (Z.div_mod doe 1460 ltac:(lia)) as Da. pose proof (Z.mod_pos_bound doe 1460 ltac:(lia)) as Ma.
  set (a := doe / 1460) in *. set (ra := doe mod 1460) in *. clearbody a ra.
  set (y := _ / 365).
  assert (Hy : 365 * y <= doe - a + c - 0 < 365 * y + 365).
  { unfold y. pose proof (Z.div_mod (doe - a + c - 0) 365 ltac:(lia)).
    pose proof (Z.mod_pos_bound (doe - a + c - 0) 365 ltac:(lia)). lia. }
  clearbody y.
  assert (100 * c <= y <= 100 * c + 99) by (destruct Hc' as [->|[->|[->| ->]]]; lia).
  replace (y / 100) with c by (apply Z.div_unique with (r := y - 100 * c); lia).
  pose proof (Z.div_mod y 4 ltac:(lia)). pose proof (Z.mod_pos_bound y 4 ltac:(lia)).
  set (b := y / 4) in *. set (rb := y mod 4) in *. clearbody b rb.
  split; [lia|].
  destruct Hc' as [->|[->|[->| ->]]]; lia.
Qed.

(** month and day of month from the day of the year, for all 366 of them *)
Definition doy_ok (doy : Z) : bool :=
  let mp := (5 * doy + 2) / 153 in
  let m := if mp <? 10 then mp + 3 else mp - 9 in
  let d := doy - (153 * mp + 2) / 5 + 1 in
  (1 <=? m) && (m <=? 12) && (1 <=? d) && (d <=? 31) && (0 <=? mp) && (mp <=? 11).

Lemma doy_sweep : forallb doy_ok (zseq 0 366) = true.
Proof. reflexivity. Qed.

Lemma civil_facts d :
  let doe := doe_of d in
  let mp := mp_of_doe doe in
  1 <= month_of_day d <= 12 /\ 1 <= dom_of_day d <= 31 /\ 0 <= yoe_of_doe doe <= 399 /\
  0 <= mp <= 11 /\
  365 * yoe_of_doe doe + yoe_of_doe doe / 4 - yoe_of_doe doe / 100
    + ((153 * mp + 2) / 5 + dom_of_day d - 1) = doe.
Proof.
  cbv zeta.
  pose proof (yoe_facts (doe_of d)) as Y. cbv zeta in Y. fold (yoe_of_doe (doe_of d)) in Y.
  specialize (Y ltac:(unfold doe_of; pose proof (Z.mod_pos_bound (d + 719468) 146097 ltac:(lia)); lia)).
  pose proof doy_sweep as H. rewrite forallb_forall in H.
  specialize (H (doy_of_doe (doe_of d))).
  rewrite in_zseq in H. specialize (H ltac:(unfold doy_of_doe; cbv zeta; lia)).
  unfold doy_ok in H. cbv zeta in H.
  repeat rewrite andb_true_iff in H. rewrite !Z.leb_le in H.
  unfold month_of_day, dom_of_day, mp_of_doe. cbv zeta.
  unfold doy_of_doe in *. cbv zeta in *. lia.
Qed.

Lemma month_range d : 1 <= month_of_day d <= 12.
Proof. apply (civil_facts d). Qed.

Lemma dom_range d : 1 <= dom_of_day d <= 31.
Proof. apply (civil_facts d). Qed.

Lemma civil_roundtrip d :
  day_of_civil (year_of_day d) (month_of_day d) (dom_of_day d) = d.
Proof.
  pose proof (civil_facts d) as H. cbv zeta in H.
  destruct H as (Hm & Hd & Hy & Hp & E).
  unfold day_of_civil, year_of_day.
  assert (Em : month_of_day d =
     (if mp_of_doe (doe_of d) <? 10 then mp_of_doe (doe_of d) + 3 else mp_of_doe (doe_of d) - 9))
    by reflexivity.
  set (yoe := yoe_of_doe (doe_of d)) in *.
  set (mp := mp_of_doe (doe_of d)) in *.
  set (m := month_of_day d) in *.
  assert (Ey : (if m <=? 2 then (if m <=? 2 then yoe + era_of d * 400 + 1 else yoe + era_of d * 400) - 1
               else (if m <=? 2 then yoe + era_of d * 400 + 1 else yoe + era_of d * 400))
               = era_of d * 400 + yoe) by (destruct (m <=? 2); lia).
  rewrite Ey.
  replace ((era_of d * 400 + yoe) / 400) with (era_of d)
    by (apply Z.div_unique with (r := yoe); lia).
  replace ((era_of d * 400 + yoe) mod 400) with yoe
    by (apply Z.mod_unique with (q := era_of d); lia).
  assert (Emp : (if 2 <? m then m - 3 else m + 9) = mp).
  { rewrite Em. destruct (mp <? 10) eqn:C.
    - apply Z.ltb_lt in C. destruct (2 <? mp + 3) eqn:D; [lia|apply Z.ltb_ge in D; lia].
    - apply Z.ltb_ge in C. destruct (2 <? mp - 9) eqn:D; [apply Z.ltb_lt in D; lia|lia]. }
  rewrite Emp.
  replace (yoe * 365 + yoe / 4 - yoe / 100 +
           ((153 * mp + 2) / 5 + dom_of_day d - 1))
    with (doe_of d) by lia.
  unfold era_of, doe_of. pose proof (Z.div_mod (d + 719468) 146097 ltac:(lia)). lia.
Qed.
