(** Sun times over exact reals. *)
From Coq Require Import ZArith List Bool Lia Reals Lra.
From Verif Require Import Py Num Cal Trans UtilModel2 SpecUtil.
Import ListNotations.
Open Scope R_scope.

Lemma decl_xr doy : declination doy = Fin (decl_R doy).
Proof.
  unfold declination. rewrite !lit_xr by lia. cbn [Z.pow Z.pow_pos Pos.iter Z.mul Pos.mul Pos.add Pos.succ].
  rewrite !nofZ_xr. rewrite xdiv_Fin. 2:{ lra. } rewrite xsub_Fin, xmul_Fin, !deg2rad_Fin.
  replace (360 / (36525 / 100) * (IZR doy - 79346 / 1000) * (PI / 180)) with (decl_angle doy).
  2:{ unfold decl_angle. do 2 f_equal; lra. }
  set (a := decl_angle doy). rewrite !xmul_Fin, !xsin_Fin, !xcos_Fin, !xmul_Fin.
  repeat (rewrite ?xadd_Fin, ?xsub_Fin). rewrite deg2rad_Fin. reflexivity.
Qed.
Lemma eqtime_xr doy : eq_time doy = Fin (eqtime_R doy).
Proof.
  unfold eq_time, xpi. rewrite !lit_xr by lia. cbn [Z.pow Z.pow_pos Pos.iter Z.mul Pos.mul Pos.add Pos.succ].
  rewrite !nofZ_xr. pose proof PI_RGT_0.
  rewrite !xmul_Fin, !xdiv_Fin by lra.
  set (a := 2 * PI * IZR (doy - 1) / 365). rewrite !xmul_Fin, !xsin_Fin, !xcos_Fin, !xmul_Fin.
  repeat (rewrite ?xadd_Fin, ?xsub_Fin). rewrite xmul_Fin. reflexivity.
Qed.

(** half day length in hours, from the argument of acos *)
Definition half_day (u : R) : R := if Rlt_dec u (-1) then 12 else if Rlt_dec 1 u then 0 else 12 * acos u / PI.
Lemma half_day_range u : 0 <= half_day u <= 12.
Proof.
  unfold half_day. pose proof PI_RGT_0. destruct (Rlt_dec u (-1)); [lra|]. destruct (Rlt_dec 1 u); [lra|].
  pose proof (acos_bound u). unfold Rdiv. split.
  - apply Rmult_le_pos; [lra|]. left. apply Rinv_0_lt_compat. lra.
  - apply Rmult_le_reg_r with PI; [lra|]. rewrite Rmult_assoc, Rinv_l by lra. lra.
Qed.

Lemma sun_raw_ok doy lon lat tz :
  let u := - tan (lat * (PI / 180)) * tan (decl_R doy) in
  sun_raw doy (Fin lon) (Fin lat) (Fin tz)
  = (Fin (noon_R doy lon tz - half_day u), Fin (noon_R doy lon tz), Fin (noon_R doy lon tz + half_day u)).
Proof.
  intro u. unfold sun_raw, xpi. cbv zeta. rewrite eqtime_xr, decl_xr, deg2rad_Fin, !nofZ_xr. pose proof PI_RGT_0.
  rewrite n1_xr. cbn [xtan lift1]. 
  change (- Fin (tan (lat * (PI / 180))))%num with (Fin (- tan (lat * (PI / 180)))). rewrite !xmul_Fin. fold u.
  rewrite !xsub_Fin, xmul_Fin, xdiv_Fin by lra. rewrite !xsub_Fin, !xltb_Fin.
  assert (EN : 12 * 1 - (lon - tz * 15) * 24 / 360 - eqtime_R doy = noon_R doy lon tz) by (unfold noon_R; lra).
  rewrite EN. unfold half_day.
  destruct (Rltb_spec u (-1)) as [A|A], (Rlt_dec u (-1)); try contradiction;
    [|destruct (Rltb_spec 1 u) as [B|B], (Rlt_dec 1 u); try contradiction].
  - destruct (Rltb_spec 1 u); [lra|]. rewrite xadd_Fin. reflexivity.
  - rewrite Rplus_0_r, Rminus_0_r. reflexivity.
  - rewrite xacos_Fin by lra. rewrite xdiv_Fin by lra. rewrite xsub_Fin, !xadd_Fin, !xmul_Fin, !xsub_Fin.
    f_equal; [f_equal|]; f_equal; rewrite <- EN; unfold Rdiv; lra.
Qed.

Lemma cos_half_day u : -1 <= u <= 1 -> cos (half_day u * (PI / 12)) = u.
Proof.
  intro H. unfold half_day. destruct (Rlt_dec u (-1)); [lra|]. destruct (Rlt_dec 1 u); [lra|].
  replace (12 * acos u / PI * (PI / 12)) with (acos u) by (field; apply PI_neq0). apply cos_acos. exact H.
Qed.
Lemma half_day_full u : half_day u = 12 <-> u <= -1.
Proof.
  split.
  - intro H. destruct (Rle_dec u (-1)) as [|N]; [assumption|]. exfalso. destruct (Rle_dec u 1) as [L|L].
    + pose proof (cos_half_day u ltac:(lra)) as C. rewrite H in C. replace (12 * (PI / 12)) with PI in C by lra. rewrite cos_PI in C. lra.
    + unfold half_day in H. destruct (Rlt_dec u (-1)); [lra|]. destruct (Rlt_dec 1 u); [lra|lra].
  - intro H. unfold half_day. destruct (Rlt_dec u (-1)); [reflexivity|]. destruct (Rlt_dec 1 u); [lra|].
    replace u with (-1) by lra. replace (acos (-1)) with PI; [field; apply PI_neq0|].
    rewrite <- cos_PI, acos_cos; [reflexivity|]. pose proof PI_RGT_0. lra.
Qed.
Lemma half_day_none u : half_day u = 0 <-> 1 <= u.
Proof.
  split.
  - intro H. destruct (Rle_dec 1 u) as [|N]; [assumption|]. exfalso. destruct (Rle_dec (-1) u) as [L|L].
    + pose proof (cos_half_day u ltac:(lra)) as C. rewrite H in C. rewrite Rmult_0_l, cos_0 in C. lra.
    + unfold half_day in H. destruct (Rlt_dec u (-1)); [lra|]. destruct (Rlt_dec 1 u); [lra|lra].
  - intro H. unfold half_day. destruct (Rlt_dec u (-1)); [lra|]. destruct (Rlt_dec 1 u); [reflexivity|].
    replace u with 1 by lra. rewrite acos_1. lra.
Qed.

Lemma sun_times1_ok doy lon lat tz :
  let hd := half_day (- tan (lat * (PI / 180)) * tan (decl_R doy)) in
  let noon := noon_R doy lon tz in
  sun_times1 doy (Fin lon) (Fin lat) (Fin tz)
  = {| sunrise := Fin (if Rlt_dec (noon - hd) 0 then noon - hd + 24 else noon - hd);
       sunnoon := Fin noon;
       sunset := Fin (if Rlt_dec 24 (noon + hd) then noon + hd - 24 else noon + hd);
       daylength := Fin (2 * hd) |}.
Proof.
  intros hd noon. unfold sun_times1. rewrite sun_raw_ok. fold hd noon. rewrite n0_xr, !nofZ_xr, !xltb_Fin, xadd_Fin, !xsub_Fin.
  f_equal.
  - destruct (Rltb_spec (noon - hd) 0), (Rlt_dec (noon - hd) 0); try contradiction; reflexivity.
  - destruct (Rltb_spec 24 (noon + hd)), (Rlt_dec 24 (noon + hd)); try contradiction; reflexivity.
  - f_equal. lra.
Qed.
