(** Vapour pressure, dew point and sun times over exact reals. *)
From Coq Require Import ZArith List Bool Lia Reals Lra.
From Verif Require Import Py Num Cal Trans UtilModel2 SpecUtil.
Import ListNotations.
Open Scope R_scope.

(** ** the two saturation curves *)
Definition mag (a b x : R) : R := a * x / (b + x).
Definition svp (T : R) : R :=
  if Rle_dec 273.15 T then 6.112 * exp (mag 17.62 243.12 (T - 273.15))
  else 6.112 * exp (mag 22.46 272.62 (T - 273.15)).

Lemma mag_alt a b x : b + x <> 0 -> mag a b x = a - a * b / (b + x).
Proof. intro H. unfold mag. field. exact H. Qed.
Lemma mag_incr a b x y : 0 < a -> 0 < b -> 0 < b + x -> x < y -> mag a b x < mag a b y.
Proof.
  intros Ha Hb Hx Hxy. rewrite !mag_alt by lra.
  assert (/ (b + y) < / (b + x)) by (apply Rinv_lt_contravar; [apply Rmult_lt_0_compat; lra|lra]).
  assert (0 < a * b) by (apply Rmult_lt_0_compat; assumption).
  assert (a * b * / (b + y) < a * b * / (b + x)) by (apply Rmult_lt_compat_l; assumption).
  unfold Rdiv. lra.
Qed.
Lemma mag_0 a b : mag a b 0 = 0.
Proof. unfold mag. rewrite Rmult_0_r. unfold Rdiv. apply Rmult_0_l. Qed.
Lemma mag_below a b x : 0 < a -> 0 < b -> 0 < b + x -> mag a b x < a.
Proof.
  intros Ha Hb Hx. rewrite mag_alt by lra. assert (0 < a * b / (b + x)); [|lra].
  apply Rdiv_lt_0_compat; [apply Rmult_lt_0_compat; assumption|exact Hx].
Qed.
(** the inverse of [mag] *)
Definition unmag (a b l : R) : R := b * l / (a - l).
Lemma mag_unmag a b l : a <> 0 -> b <> 0 -> l <> a -> mag a b (unmag a b l) = l.
Proof.
  intros Ha Hb Hl. unfold mag, unmag.
  assert (a - l <> 0) by lra.
  replace (b + b * l / (a - l)) with (b * a / (a - l)) by (field; assumption).
  field. repeat split; assumption.
Qed.
Lemma unmag_mag a b x : 0 < a -> 0 < b -> 0 < b + x -> unmag a b (mag a b x) = x.
Proof.
  intros Ha Hb Hx. unfold unmag. rewrite mag_alt by lra.
  replace (a - (a - a * b / (b + x))) with (a * b / (b + x)) by ring. field. repeat split; lra.
Qed.
Lemma unmag_above a b l : 0 < a -> 0 < b -> l < a -> - b < unmag a b l.
Proof.
  intros Ha Hb Hl. unfold unmag.
  replace (b * l / (a - l)) with (- b + a * b / (a - l)) by (field; lra).
  assert (0 < a * b / (a - l)); [|lra]. apply Rdiv_lt_0_compat; [apply Rmult_lt_0_compat; assumption|lra].
Qed.
Lemma unmag_incr a b l m : 0 < a -> 0 < b -> l <= m -> m < a -> unmag a b l <= unmag a b m.
Proof.
  intros Ha Hb Hl Hm. unfold unmag.
  replace (b * l / (a - l)) with (- b + a * b / (a - l)) by (field; lra).
  replace (b * m / (a - m)) with (- b + a * b / (a - m)) by (field; lra).
  assert (/ (a - l) <= / (a - m)) by (apply Rinv_le_contravar; lra).
  assert (0 < a * b) by (apply Rmult_lt_0_compat; assumption).
  assert (a * b * / (a - l) <= a * b * / (a - m)) by (apply Rmult_le_compat_l; lra).
  unfold Rdiv. lra.
Qed.

Lemma svp_pos T : 0 < svp T.
Proof. unfold svp. destruct (Rle_dec _ _); (apply Rmult_lt_0_compat; [lra|apply exp_pos]). Qed.
Lemma svp_zero : svp 273.15 = 6.112.
Proof.
  unfold svp. destruct (Rle_dec 273.15 273.15); [|lra]. replace (273.15 - 273.15) with 0 by lra. rewrite mag_0, exp_0. lra.
Qed.
Lemma svp_incr T1 T2 : 0.53 < T1 -> T1 < T2 -> svp T1 < svp T2.
Proof.
  intros H1 H2. unfold svp. destruct (Rle_dec 273.15 T1) as [A|A], (Rle_dec 273.15 T2) as [B|B]; [| lra | |];
    (apply Rmult_lt_compat_l; [lra|]); apply exp_increasing.
  - apply mag_incr; lra.
  - apply Rlt_le_trans with 0.
    + rewrite <- (mag_0 22.46 272.62). apply mag_incr; lra.
    + destruct (Req_dec T2 273.15) as [->|NE].
      * replace (273.15 - 273.15) with 0 by lra. rewrite mag_0. lra.
      * left. rewrite <- (mag_0 17.62 243.12). apply mag_incr; lra.
  - apply mag_incr; lra.
Qed.

Lemma decimals : c_zero = Fin 273.15 /\ lit 6112 3 = Fin 6.112 /\ lit 1762 2 = Fin 17.62 /\ lit 24312 2 = Fin 243.12 /\
  lit 2246 2 = Fin 22.46 /\ lit 27262 2 = Fin 272.62.
Proof.
  unfold c_zero. rewrite !lit_xr by lia. cbn [Z.pow Z.pow_pos Pos.iter Z.mul]. 
  repeat split; f_equal; lra.
Qed.

Lemma vapor_pressure1_Fin T h : 0.53 < T -> vapor_pressure1 (Fin T) (Fin h) = Fin (svp T * h / 100).
Proof.
  intro HT. destruct decimals as (E0 & E1 & E2 & E3 & E4 & E5).
  unfold vapor_pressure1. rewrite E0, E1, E2, E3, E4, E5, xleb_Fin. unfold svp, mag.
  change (n_ofZ 100) with (Fin 100).
  destruct (Rleb_spec 273.15 T) as [A|A], (Rle_dec 273.15 T); try contradiction;
    rewrite xsub_Fin, xmul_Fin, xadd_Fin, xdiv_Fin by lra; rewrite xexp_Fin, !xmul_Fin, xdiv_Fin by lra; reflexivity.
Qed.
Lemma vapor_pressure1_NaN h : vapor_pressure1 NaN h = NaN /\ vapor_pressure1 h NaN = NaN.
Proof.
  destruct decimals as (E0 & E1 & E2 & E3 & E4 & E5).
  unfold vapor_pressure1. rewrite E0, E1, E2, E3, E4, E5. split.
  - cbn. destruct h; reflexivity.
  - destruct (Fin 273.15 <=? h)%num; cbn [n_mul n_div Num_xr]; (match goal with |- xdiv (xmul ?x NaN) _ = _ => destruct x end); reflexivity.
Qed.

(** ** dew point *)
Lemma ln_ratio_pos h : 0 < h -> 0 < h / 100.
Proof. intro. lra. Qed.
Lemma dewpoint1_Fin T h : 0.53 < T -> 0 < h -> h <= 100 ->
  dewpoint1 (Fin T) (Fin h) =
  Fin (273.15 + if Rle_dec 273.15 T then unmag 17.62 243.12 (mag 17.62 243.12 (T - 273.15) + ln (h / 100))
                else unmag 22.46 272.62 (mag 22.46 272.62 (T - 273.15) + ln (h / 100))).
Proof.
  intros HT Hh Hh2. unfold dewpoint1. rewrite vapor_pressure1_Fin by exact HT.
  destruct decimals as (E0 & E1 & E2 & E3 & E4 & E5). rewrite E0, E1, E2, E3, E4, E5.
  assert (LH : ln (h / 100) <= 0).
  { rewrite <- ln_1. destruct (Req_dec h 100) as [->|NE]; [right; f_equal; lra|]. left. apply ln_increasing; lra. }
  rewrite xdiv_Fin by lra.
  assert (EV : forall m, 6.112 * exp m * h / 100 / 6.112 = exp m * (h / 100)) by (intro; lra).
  rewrite xleb_Fin. unfold svp. destruct (Rleb_spec 273.15 T) as [A|A], (Rle_dec 273.15 T); try contradiction.
  - rewrite EV. pose proof (exp_pos (mag 17.62 243.12 (T - 273.15))).
    rewrite xln_Fin by (apply Rmult_lt_0_compat; lra). rewrite ln_mult, ln_exp by lra.
    pose proof (mag_below 17.62 243.12 (T - 273.15) ltac:(lra) ltac:(lra) ltac:(lra)).
    rewrite xsub_Fin, xmul_Fin, xdiv_Fin by lra. rewrite xadd_Fin. f_equal. unfold unmag. lra.
  - rewrite EV. pose proof (exp_pos (mag 22.46 272.62 (T - 273.15))).
    rewrite xln_Fin by (apply Rmult_lt_0_compat; lra). rewrite ln_mult, ln_exp by lra.
    pose proof (mag_below 22.46 272.62 (T - 273.15) ltac:(lra) ltac:(lra) ltac:(lra)).
    rewrite xsub_Fin, xmul_Fin, xdiv_Fin by lra. rewrite xadd_Fin. f_equal. unfold unmag. lra.
Qed.

Definition dew (T h : R) : R :=
  273.15 + if Rle_dec 273.15 T then unmag 17.62 243.12 (mag 17.62 243.12 (T - 273.15) + ln (h / 100))
           else unmag 22.46 272.62 (mag 22.46 272.62 (T - 273.15) + ln (h / 100)).
Lemma ln_hum h : 0 < h -> h <= 100 -> ln (h / 100) <= 0.
Proof. intros. rewrite <- ln_1. destruct (Req_dec h 100) as [->|NE]; [right; f_equal; lra|]. left. apply ln_increasing; lra. Qed.
Lemma dew_saturated T : 0.53 < T -> dew T 100 = T.
Proof.
  intro HT. unfold dew. replace (100 / 100) with 1 by lra. rewrite ln_1, !Rplus_0_r.
  destruct (Rle_dec 273.15 T); rewrite unmag_mag by lra; lra.
Qed.
Lemma dew_le T h h' : 0.53 < T -> 0 < h -> h <= h' -> h' <= 100 -> dew T h <= dew T h'.
Proof.
  intros HT H1 H2 H3. unfold dew. pose proof (ln_hum h' ltac:(lra) H3).
  assert (ln (h / 100) <= ln (h' / 100)).
  { destruct (Req_dec h h') as [->|NE]; [lra|]. left. apply ln_increasing; lra. }
  destruct (Rle_dec 273.15 T).
  - pose proof (mag_below 17.62 243.12 (T - 273.15) ltac:(lra) ltac:(lra) ltac:(lra)).
    assert (unmag 17.62 243.12 (mag 17.62 243.12 (T - 273.15) + ln (h / 100)) <= unmag 17.62 243.12 (mag 17.62 243.12 (T - 273.15) + ln (h' / 100))); [|lra].
    apply unmag_incr; lra.
  - pose proof (mag_below 22.46 272.62 (T - 273.15) ltac:(lra) ltac:(lra) ltac:(lra)).
    assert (unmag 22.46 272.62 (mag 22.46 272.62 (T - 273.15) + ln (h / 100)) <= unmag 22.46 272.62 (mag 22.46 272.62 (T - 273.15) + ln (h' / 100))); [|lra].
    apply unmag_incr; lra.
Qed.
Lemma dew_low T h : 0.53 < T -> 0 < h -> h <= 100 -> 0.53 < dew T h /\ (273.15 <= T -> 30 < dew T h).
Proof.
  intros HT H1 H2. pose proof (ln_hum h H1 H2). unfold dew. destruct (Rle_dec 273.15 T).
  - pose proof (mag_below 17.62 243.12 (T - 273.15) ltac:(lra) ltac:(lra) ltac:(lra)).
    pose proof (unmag_above 17.62 243.12 (mag 17.62 243.12 (T - 273.15) + ln (h / 100)) ltac:(lra) ltac:(lra) ltac:(lra)).
    split; [lra|]. intros _. lra.
  - pose proof (mag_below 22.46 272.62 (T - 273.15) ltac:(lra) ltac:(lra) ltac:(lra)).
    pose proof (unmag_above 22.46 272.62 (mag 22.46 272.62 (T - 273.15) + ln (h / 100)) ltac:(lra) ltac:(lra) ltac:(lra)).
    split; [lra|]. intro; lra.
Qed.
Lemma exp_sum_ln m h : 0 < h -> 6.112 * exp (m + ln h) = 6.112 * exp m * h.
Proof. intro. rewrite exp_plus, exp_ln by assumption. ring. Qed.
(** same side of the freezing point: exact inverse *)
Lemma dew_inverse T h : 0.53 < T -> 0 < h -> h <= 100 -> (273.15 <= dew T h \/ T < 273.15) ->
  svp (dew T h) * 100 / 100 = svp T * h / 100.
Proof.
  intros HT H1 H2 HS. pose proof (dew_le T h 100 HT H1 H2 ltac:(lra)) as DL. rewrite dew_saturated in DL by exact HT.
  pose proof (ln_hum h H1 H2). unfold svp at 2. destruct (Rle_dec 273.15 T) as [A|A].
  - destruct HS as [HS|HS]; [|lra]. unfold svp. destruct (Rle_dec 273.15 (dew T h)); [|contradiction].
    unfold dew. destruct (Rle_dec 273.15 T); [|contradiction].
    pose proof (mag_below 17.62 243.12 (T - 273.15) ltac:(lra) ltac:(lra) ltac:(lra)).
    set (l := mag 17.62 243.12 (T - 273.15)) in *.
    replace (273.15 + unmag 17.62 243.12 (l + ln (h / 100)) - 273.15) with (unmag 17.62 243.12 (l + ln (h / 100))) by lra.
    rewrite mag_unmag by lra. rewrite exp_sum_ln by lra. lra.
  - unfold svp. destruct (Rle_dec 273.15 (dew T h)); [lra|].
    unfold dew. destruct (Rle_dec 273.15 T); [contradiction|].
    pose proof (mag_below 22.46 272.62 (T - 273.15) ltac:(lra) ltac:(lra) ltac:(lra)).
    set (l := mag 22.46 272.62 (T - 273.15)) in *.
    replace (273.15 + unmag 22.46 272.62 (l + ln (h / 100)) - 273.15) with (unmag 22.46 272.62 (l + ln (h / 100))) by lra.
    rewrite mag_unmag by lra. rewrite exp_sum_ln by lra. lra.
Qed.
(** across the freezing point: too small *)
Lemma dew_across T h : 273.15 <= T -> 0 < h -> h <= 100 -> 138 < dew T h -> dew T h < 273.15 ->
  svp (dew T h) < svp T * h / 100.
Proof.
  intros HT H1 H2 HL HU. pose proof (ln_hum h H1 H2).
  assert (E : svp T * h / 100 = 6.112 * exp (mag 17.62 243.12 (dew T h - 273.15))).
  { unfold svp, dew. destruct (Rle_dec 273.15 T); [|contradiction].
    pose proof (mag_below 17.62 243.12 (T - 273.15) ltac:(lra) ltac:(lra) ltac:(lra)).
    set (l := mag 17.62 243.12 (T - 273.15)) in *.
    replace (273.15 + unmag 17.62 243.12 (l + ln (h / 100)) - 273.15) with (unmag 17.62 243.12 (l + ln (h / 100))) by lra.
    rewrite mag_unmag by lra. rewrite exp_sum_ln by lra. lra. }
  rewrite E. unfold svp. destruct (Rle_dec 273.15 (dew T h)); [lra|]. set (x := dew T h - 273.15).
  apply Rmult_lt_compat_l; [lra|]. apply exp_increasing.
  assert (-135.15 < x < 0) by (unfold x; lra). clearbody x. unfold mag.
  apply Rmult_lt_reg_r with (272.62 + x); [lra|]. apply Rmult_lt_reg_r with (243.12 + x); [lra|].
  replace (22.46 * x / (272.62 + x) * (272.62 + x) * (243.12 + x)) with (x * (22.46 * (243.12 + x))) by (field; lra).
  replace (17.62 * x / (243.12 + x) * (272.62 + x) * (243.12 + x)) with (x * (17.62 * (272.62 + x))) by (field; lra).
  assert (17.62 * (272.62 + x) < 22.46 * (243.12 + x)) by lra.
  apply Rmult_lt_gt_compat_neg_l; lra.
Qed.
Lemma dewpoint_dry T : 0.53 < T -> dewpoint1 (Fin T) (Fin 0) = NaN.
Proof.
  intro HT. unfold dewpoint1. rewrite vapor_pressure1_Fin by exact HT.
  destruct decimals as (E0 & E1 & E2 & E3 & E4 & E5). rewrite E0, E1, E2, E3, E4, E5.
  replace (svp T * 0 / 100) with 0 by lra. rewrite xdiv_Fin by lra. replace (0 / 6.112) with 0 by lra.
  replace (xln (Fin 0)) with NInf.
  2:{ cbn. destruct (Rltb_spec 0 0); [lra|]. destruct (Reqb_spec 0 0); [reflexivity|lra]. }
  cbn. destruct (Rleb _ _); destruct (Reqb _ _); try reflexivity; destruct (Rltb _ _); reflexivity.
Qed.
