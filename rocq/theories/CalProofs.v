(** The Gregorian calendar of Cal.v: the day numbers are in one-to-one correspondence with the valid dates. *)
From Coq Require Import ZArith List Bool Lia.
From Verif Require Import Cal.
Import ListNotations.
Open Scope Z_scope.
Open Scope bool_scope.

Definition is_leap (y : Z) : bool := (y mod 4 =? 0) && (negb (y mod 100 =? 0) || (y mod 400 =? 0)).
Definition days_in_month (y m : Z) : Z :=
  if m =? 2 then (if is_leap y then 29 else 28)
  else if (m =? 4) || (m =? 6) || (m =? 9) || (m =? 11) then 30 else 31.
Definition valid_date (y m d : Z) : Prop := 1 <= m <= 12 /\ 1 <= d <= days_in_month y m.

Ltac dm x k := pose proof (Z.div_mod x k ltac:(lia)); pose proof (Z.mod_pos_bound x k ltac:(lia)).

Definition before_year (y : Z) : Z := 365 * y + y / 4 - y / 100.
(** the March-based year [y] of the era has 366 days when year [y + 1] is leap *)
Definition long_year (y : Z) : Prop := (y + 1) mod 4 = 0 /\ ((y + 1) mod 100 <> 0 \/ y = 399).

Lemma yoe_back y doy : 0 <= y <= 399 -> 0 <= doy <= 365 -> (doy = 365 -> long_year y) ->
  0 <= before_year y + doy < 146097 /\ yoe_of_doe (before_year y + doy) = y.
Proof.
  intros Hy Hd Hl. unfold before_year, yoe_of_doe.
  destruct (Z.eq_dec y 399) as [->|N9].
  - change (365 * 399 + 399 / 4 - 399 / 100) with 145731. split; [lia|].
    destruct (Z.eq_dec doy 365) as [->|ND]; [reflexivity|].
    replace ((145731 + doy) / 36524) with 3 by (apply Z.div_unique with (r := 145731 + doy - 36524 * 3); lia).
    replace ((145731 + doy) / 146096) with 0 by (apply Z.div_unique with (r := 145731 + doy); lia).
    symmetry. dm (145731 + doy) 1460. apply Z.div_unique with (r := 145731 + doy - (145731 + doy) / 1460 + 3 - 0 - 365 * 399); lia.
  - assert (C : exists c r, 0 <= c <= 3 /\ 0 <= r <= 99 /\ y = 100 * c + r).
    { exists (y / 100), (y mod 100). dm y 100. lia. }
    destruct C as (c & r & Hc & Hr & E).
    replace (y / 100) with c by (apply Z.div_unique with (r := r); lia).
    assert (L : doy = 365 -> r <> 99 /\ y mod 4 = 3).
    { intro Q. destruct (Hl Q) as [L1 [L2|L2]]; [|lia]. dm (y + 1) 4. dm y 4. dm (y + 1) 100. split; [|lia]. intro. subst r. apply L2.
      symmetry. apply Z.mod_unique with (q := c + 1); lia. }
    dm y 4. set (b := y / 4) in *. set (rb := y mod 4) in *. clearbody b rb.
    set (doe := 365 * y + b - c + doy).
    assert (B : 36524 * c <= doe < 36524 * c + 36524) by (unfold doe; lia).
    split; [lia|].
    replace (doe / 36524) with c by (apply Z.div_unique with (r := doe - 36524 * c); lia).
    replace (doe / 146096) with 0 by (apply Z.div_unique with (r := doe); lia).
    dm doe 1460. set (a := doe / 1460) in *. set (ra := doe mod 1460) in *. clearbody a ra.
    symmetry. apply Z.div_unique with (r := doe - a + c - 0 - 365 * y); [left|lia].
    unfold doe in *. lia.
Qed.

Lemma doy_last doe : 0 <= doe < 146097 -> doe - before_year (yoe_of_doe doe) = 365 -> long_year (yoe_of_doe doe).
Proof.
  intros H Q. pose proof (yoe_facts doe H) as Y. cbv zeta in Y. fold (yoe_of_doe doe) in Y.
  set (y := yoe_of_doe doe) in *. destruct Y as [Hy _].
  destruct (Z.eq_dec y 399) as [E9|N9]; [rewrite E9; split; [reflexivity|auto]|].
  (* otherwise the same day number would also be the first day of year y + 1 *)
  destruct (Z.eq_dec (before_year (y + 1)) (before_year y + 365)) as [E|E].
  - exfalso. destruct (yoe_back (y + 1) 0 ltac:(lia) ltac:(lia) ltac:(lia)) as [_ Bk].
    rewrite Z.add_0_r, E in Bk. replace (before_year y + 365) with doe in Bk by lia. fold y in Bk. lia.
  - unfold before_year in E. unfold long_year. dm y 4. dm y 100. dm (y + 1) 4. dm (y + 1) 100. lia.
Qed.

(** the lengths of the March-based months; February last *)
Definition mp_len (mp : Z) : Z := nth (Z.to_nat mp) [31; 30; 31; 30; 31; 31; 30; 31; 30; 31; 31; 29] 0.
Lemma month_sweep : forallb (fun mp => forallb (fun d =>
    let doy := (153 * mp + 2) / 5 + d - 1 in
    (mp_len mp <? d) || (((5 * doy + 2) / 153 =? mp) && (0 <=? doy) && (doy <=? 365) && ((doy <? 365) || (mp =? 11) && (d =? 29))))
  (zseq 1 31)) (zseq 0 12) = true.
Proof. reflexivity. Qed.
Lemma dom_sweep : forallb (fun doy =>
    let mp := (5 * doy + 2) / 153 in let d := doy - (153 * mp + 2) / 5 + 1 in
    (d <=? mp_len mp) && (negb ((mp =? 11) && (d =? 29)) || (doy =? 365))) (zseq 0 366) = true.
Proof. reflexivity. Qed.

Lemma len_months y m : 1 <= m <= 12 -> m <> 2 -> mp_len (if 2 <? m then m - 3 else m + 9) = days_in_month y m.
Proof.
  intros H N. assert (C : m = 1 \/ m = 3 \/ m = 4 \/ m = 5 \/ m = 6 \/ m = 7 \/ m = 8 \/ m = 9 \/ m = 10 \/ m = 11 \/ m = 12) by lia.
  repeat (destruct C as [->|C]; [reflexivity|]). subst m. reflexivity.
Qed.
Lemma leap_long y : is_leap (y + 1) = true <-> long_year (y mod 400).
Proof.
  unfold is_leap, long_year. rewrite andb_true_iff, orb_true_iff, negb_true_iff, Z.eqb_eq, Z.eqb_neq, Z.eqb_eq.
  dm y 400. dm (y mod 400 + 1) 4. dm (y + 1) 4. dm (y + 1) 100. dm (y mod 400 + 1) 100. dm (y + 1) 400. lia.
Qed.

Theorem civil_back y m d : valid_date y m d ->
  year_of_day (day_of_civil y m d) = y /\ month_of_day (day_of_civil y m d) = m /\ dom_of_day (day_of_civil y m d) = d.
Proof.
  intros [Hm Hd].
  set (y' := if m <=? 2 then y - 1 else y). set (mp := if 2 <? m then m - 3 else m + 9).
  set (doy := (153 * mp + 2) / 5 + d - 1).
  assert (Hmp : 0 <= mp < 12) by (unfold mp; destruct (Z.ltb_spec 2 m); lia).
  assert (Hl : d <= mp_len mp).
  { destruct (Z.eq_dec m 2) as [->|N]; [|unfold mp; rewrite (len_months y m Hm N); lia].
    unfold mp. change (mp_len _) with 29. unfold days_in_month in Hd. cbn in Hd. destruct (is_leap y); lia. }
  assert (Hd31 : d <= 31). { revert Hd. unfold days_in_month. destruct (m =? 2), (is_leap y), ((m =? 4) || (m =? 6) || (m =? 9) || (m =? 11)); lia. }
  pose proof month_sweep as S0. rewrite forallb_forall in S0. specialize (S0 mp ltac:(apply in_zseq; lia)).
  rewrite forallb_forall in S0. specialize (S0 d ltac:(apply in_zseq; lia)). cbv zeta in S0. fold doy in S0.
  rewrite orb_true_iff, !andb_true_iff, orb_true_iff, andb_true_iff, !Z.ltb_lt, !Z.eqb_eq, !Z.leb_le in S0.
  destruct S0 as [S0|(((S1 & S2) & S3) & S4)]; [lia|].
  assert (LY : doy = 365 -> long_year (y' mod 400)).
  { intro Q. destruct S4 as [S4|[M4 D4]]; [lia|]. apply leap_long. assert (m = 2) by (unfold mp in M4; destruct (Z.ltb_spec 2 m); lia). subst m.
    unfold y'. cbn [Z.leb Z.compare Pos.compare Pos.compare_cont]. replace (y - 1 + 1) with y by lia. unfold days_in_month in Hd. cbn in Hd. destruct (is_leap y); [reflexivity|lia]. }
  destruct (yoe_back (y' mod 400) doy ltac:(pose proof (Z.mod_pos_bound y' 400 ltac:(lia)); lia) ltac:(lia) LY) as [R Y].
  set (doe := before_year (y' mod 400) + doy) in *.
  assert (DC : day_of_civil y m d = y' / 400 * 146097 + doe - 719468).
  { unfold day_of_civil, doe, before_year. fold y' mp. cbv zeta. fold doy. lia. }
  assert (E1 : era_of (day_of_civil y m d) = y' / 400) by (unfold era_of; rewrite DC; symmetry; apply Z.div_unique with (r := doe); lia).
  assert (E2 : doe_of (day_of_civil y m d) = doe) by (unfold doe_of; rewrite DC; symmetry; apply Z.mod_unique with (q := y' / 400); lia).
  assert (E3 : doy_of_doe doe = doy) by (unfold doy_of_doe; rewrite Y; unfold doe, before_year; lia).
  assert (E4 : mp_of_doe doe = mp) by (unfold mp_of_doe; rewrite E3; exact S1).
  assert (M : month_of_day (day_of_civil y m d) = m).
  { unfold month_of_day. rewrite E2, E4. cbv zeta. destruct (Z.ltb_spec mp 10); unfold mp in *; destruct (Z.ltb_spec 2 m); lia. }
  split; [|split; [exact M|]].
  - unfold year_of_day. rewrite M, E1, E2, Y. cbv zeta. pose proof (Z.div_mod y' 400 ltac:(lia)). unfold y' in *. destruct (m <=? 2); lia.
  - unfold dom_of_day. rewrite E2. cbv zeta. rewrite E3, E4. unfold doy. lia.
Qed.

Theorem day_valid n : valid_date (year_of_day n) (month_of_day n) (dom_of_day n).
Proof.
  pose proof (civil_facts n) as F. cbv zeta in F. destruct F as (Hm & Hd & Hy & Hp & _). split; [exact Hm|]. split; [lia|].
  set (doe := doe_of n) in *.
  assert (R : 0 <= doe < 146097) by (unfold doe, doe_of; apply Z.mod_pos_bound; lia).
  pose proof (yoe_facts doe R) as Y. cbv zeta in Y. fold (yoe_of_doe doe) in Y. destruct Y as [_ Y].
  pose proof (doy_last doe R) as L. unfold before_year in L.
  pose proof dom_sweep as S0. rewrite forallb_forall in S0. specialize (S0 (doy_of_doe doe)).
  rewrite in_zseq in S0. specialize (S0 ltac:(unfold doy_of_doe; cbv zeta; lia)). cbv zeta in S0.
  fold (mp_of_doe doe) in S0. change (doy_of_doe doe - (153 * mp_of_doe doe + 2) / 5 + 1) with (dom_of_day n) in S0.
  rewrite andb_true_iff, orb_true_iff, negb_true_iff, Z.leb_le, Z.eqb_eq in S0. destruct S0 as [S1 S2].
  assert (Em : month_of_day n = (if mp_of_doe doe <? 10 then mp_of_doe doe + 3 else mp_of_doe doe - 9)) by reflexivity.
  assert (Emp : mp_of_doe doe = (if 2 <? month_of_day n then month_of_day n - 3 else month_of_day n + 9)).
  { rewrite Em. destruct (Z.ltb_spec (mp_of_doe doe) 10); [destruct (Z.ltb_spec 2 (mp_of_doe doe + 3))|destruct (Z.ltb_spec 2 (mp_of_doe doe - 9))]; lia. }
  destruct (Z.eq_dec (month_of_day n) 2) as [E2|N2].
  2: { rewrite <- (len_months _ _ Hm N2), <- Emp. exact S1. }
  assert (P11 : mp_of_doe doe = 11) by (rewrite Emp, E2; reflexivity). rewrite P11 in *. change (mp_len 11) with 29 in S1.
  rewrite E2. unfold days_in_month. cbn [Z.eqb Pos.eqb]. destruct (is_leap (year_of_day n)) eqn:EL; [exact S1|].
  assert (dom_of_day n <> 29); [|lia]. intro D. rewrite D in S2. cbn in S2. destruct S2 as [S2|S2]; [discriminate|].
  assert (LL : long_year (yoe_of_doe doe)) by (apply L; unfold doy_of_doe in S2; cbv zeta in S2; lia).
  enough (is_leap (year_of_day n) = true) by congruence. unfold year_of_day. rewrite E2. cbv zeta. cbn [Z.leb Z.compare Pos.compare Pos.compare_cont].
  apply leap_long. fold doe. replace ((yoe_of_doe doe + era_of n * 400) mod 400) with (yoe_of_doe doe); [exact LL|].
  apply Z.mod_unique with (q := era_of n); lia.
Qed.
