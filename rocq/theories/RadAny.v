(** Proofs about the daily radiation models and the random wind in doubles. *)
From Coq Require Import String ZArith List Bool Lia Reals Lra Floats.
From Flocq Require Import Core IEEE754.BinarySingleNaN IEEE754.PrimFloat.
Require Flocq.Prop.Mult_error.
From Verif Require Import Py Num Cal Series UtilModel UtilModel2 Frame TempModel RadModel RadAnyModel SpecBase SpecUtil SpecSineRound TimeProofs IndexProofs DaysProofs
  InterpProofs CourseProofs TempProofs TempCourse RadBC HumRound F64 CascadeFloat CascadeRound FiveRound CourseRound ErrCalc SpecRadAny.
Import ListNotations.
Open Scope Z_scope.
Open Scope list_scope.

(** ** the series *)
Section Series.
  Context {T : Type} {N : Num T}.
  Lemma self_lookup_any d0 (l : list T) : map (fun t => (t, match lookup t (daily d0 l) with Some v => v | None => n_nan end)) (daily_index d0 (length l)) = daily d0 l.
  Proof.
    transitivity (daily d0 (map (fun i => nth i l n_nan) (seq 0 (length l)))); [|f_equal; symmetry; apply list_seq].
    rewrite daily_seq. unfold daily_index, grid. rewrite map_map. apply map_ext_in. intros i Hi. apply in_seq in Hi.
    replace (d0 * us_day + Z.of_nat i * us_day) with ((d0 + Z.of_nat i) * us_day) by ring. f_equal. rewrite TempProofs.lookup_daily, (nth_error_nth' l i n_nan) by lia. reflexivity.
  Qed.
  Lemma next_list_any (l : list T) : l <> [] ->
    map snd (skipn 1 (daily 0 l)) ++ map snd (skipn (length l - 1) (daily 0 l)) = map (next_or_own n_nan l) (seq 0 (length l)).
  Proof.
    intro NE. rewrite <- !skipn_map, daily_snd.
    assert (LP : (0 < length l)%nat) by (destruct l; [contradiction|apply Nat.lt_0_succ]).
    apply nth_ext with (d := n_nan) (d' := n_nan).
    - rewrite app_length, !skipn_length, map_length, seq_length. lia.
    - intros i Hi. rewrite app_length, !skipn_length in Hi.
      assert (LL : (i < length l)%nat) by lia.
      rewrite (nth_indep (map (next_or_own n_nan l) _) n_nan (next_or_own n_nan l O)) by (rewrite map_length, seq_length; exact LL).
      rewrite (map_nth (next_or_own n_nan l)), seq_nth by exact LL. cbn [Nat.add]. unfold next_or_own.
      assert (NS : forall k j, nth j (skipn k l) n_nan = nth (k + j) l n_nan).
      { clear. intros k. revert l. induction k as [|k IH]; intros l j; [reflexivity|]. destruct l as [|x l]; [destruct j; reflexivity|]. apply IH. }
      destruct (Nat.eqb_spec (S i) (length l)) as [E|E].
      + rewrite app_nth2 by (rewrite skipn_length; lia). rewrite skipn_length, NS. f_equal. lia.
      + rewrite app_nth1 by (rewrite skipn_length; lia). rewrite NS. reflexivity.
  Qed.
  Lemma value_at_daily d0 (l : list T) i : (i < length l)%nat -> value_at (daily d0 l) ((d0 + Z.of_nat i) * us_day) = Ok (nth i l n_nan).
  Proof. intro H. unfold value_at. rewrite TempProofs.lookup_daily, (nth_error_nth' l i n_nan H). reflexivity. Qed.

  Definition range_of (tmin tmax : list T) (i : nat) : T := (nth i tmax n_nan - (nth i tmin n_nan + next_or_own n_nan tmin i) / n_ofZ 2)%num.
  Definition month_mean (mean : list T -> T) (tmin tmax : list T) (d0 m : Z) : T :=
    mean (map snd (filter (fun p => month_of (fst p) =? m) (daily d0 (map (range_of tmin tmax) (seq 0 (length tmin)))))).

  Lemma bristow_daily expf powf mean d0 tmin tmax pots ps (fa fb : Z -> T) : tmin <> [] -> length tmax = length tmin -> length pots = length tmin ->
    (forall i, (i < length tmin)%nat -> values_at ps ((d0 + Z.of_nat i) * us_day) = Ok (fa (month_of_day (d0 + Z.of_nat i)), fb (month_of_day (d0 + Z.of_nat i)))) ->
    bristow_any expf powf mean ps (daily d0 tmin) (daily d0 tmax) (daily d0 pots)
    = Ok (daily d0 (map (fun i => let m := month_of_day (d0 + Z.of_nat i) in
                                  bristow_value expf powf (fa m) (fb m) (bristow_B expf (month_mean mean tmin tmax d0 m)) (range_of tmin tmax i) (nth i pots n_nan)) (seq 0 (length tmin)))).
  Proof.
    intros NE L1 L2 HP. unfold bristow_any. unfold index. rewrite !daily_fst, L1, zlist_eqb_refl. cbn [negb].
    destruct (length tmin) as [|n] eqn:EL; [destruct tmin; [contradiction|discriminate]|].
    rewrite daily_index_S at 1. rewrite (last_daily_index d0 n), date_range_daily, daily_has_dup.
    rewrite <- EL. rewrite self_lookup_any.
    assert (EN : combine (daily_index d0 (length tmin)) (map snd (skipn 1 (daily d0 tmin)) ++ map snd (skipn (length (daily_index d0 (length tmin)) - 1) (daily d0 tmin)))
                 = daily d0 (map (next_or_own n_nan tmin) (seq 0 (length tmin)))).
    { unfold daily_index at 2. rewrite grid_length. unfold daily at 3. rewrite map_length, seq_length. f_equal.
      rewrite <- (next_list_any tmin NE). rewrite <- !skipn_map, !daily_snd. reflexivity. }
    rewrite EN.
    assert (NT : forall F : nat -> T, forall i, (i < length tmin)%nat -> nth i (map F (seq 0 (length tmin))) n_nan = F i).
    { intros F i Hi. rewrite (nth_indep _ n_nan (F O)) by (rewrite map_length, seq_length; exact Hi). rewrite (map_nth F), seq_nth by exact Hi. reflexivity. }
    assert (ER : mapM (fun t => let* n0 := value_at (daily d0 (map (next_or_own n_nan tmin) (seq 0 (length tmin)))) t in
                                let* lo := value_at (daily d0 tmin) t in
                                Ok (t, (match lookup t (daily d0 tmax) with Some v => v | None => n_nan end - (lo + n0) / n_ofZ 2)%num)) (daily_index d0 (length tmin))
                = Ok (daily d0 (map (range_of tmin tmax) (seq 0 (length tmin))))).
    { rewrite (daily_seq (range_of tmin tmax)). unfold daily_index, grid. rewrite mapM_map. apply mapM_Ok. intros i Hi. apply in_seq in Hi.
      replace (d0 * us_day + Z.of_nat i * us_day) with ((d0 + Z.of_nat i) * us_day) by ring.
      rewrite value_at_daily by (rewrite map_length, seq_length; lia). cbn [bind]. rewrite value_at_daily by lia. cbn [bind].
      rewrite TempProofs.lookup_daily, (nth_error_nth' tmax i n_nan) by lia. rewrite NT by lia. reflexivity. }
    rewrite ER. cbn [bind].
    assert (EQ : mapM (fun t => value_at (daily d0 pots) t) (daily_index d0 (length tmin)) = Ok (map (fun i => nth i pots n_nan) (seq 0 (length tmin)))).
    { unfold daily_index, grid. rewrite mapM_map. apply mapM_Ok. intros i Hi. apply in_seq in Hi.
      replace (d0 * us_day + Z.of_nat i * us_day) with ((d0 + Z.of_nat i) * us_day) by ring. apply value_at_daily. lia. }
    rewrite EQ. cbn [bind].
    assert (EC : combine (daily d0 (map (range_of tmin tmax) (seq 0 (length tmin)))) (map (fun i => nth i pots n_nan) (seq 0 (length tmin)))
                 = map (fun i => ((d0 + Z.of_nat i) * us_day, range_of tmin tmax i, nth i pots n_nan)) (seq 0 (length tmin)))
      by (rewrite daily_seq; apply TempCourse.combine_maps).
    rewrite EC, mapM_map.
    match goal with |- _ = Ok (daily d0 (map ?f _)) => rewrite (daily_seq f) end.
    apply mapM_Ok. intros i Hi. apply in_seq in Hi. rewrite HP by lia. cbn [bind fst snd].
    assert (EM : month_of ((d0 + Z.of_nat i) * us_day) = month_of_day (d0 + Z.of_nat i)) by (unfold month_of; rewrite day_start_date; reflexivity).
    rewrite EM. reflexivity.
  Qed.

  Lemma random_function lnf powf e d0 (w : list T) draw : n_isnan (n_nan : T) = true -> w <> [] ->
    exists out, random_any lnf powf e (daily d0 w) draw = Ok (out, (24 * length w)%nat) /\ map fst out = hours_index d0 (length w) /\
      forall i v, nth_error w i = Some v -> n_isnan v = false ->
        values_on (d0 + Z.of_nat i) out = map (fun h => random_value lnf powf v (draw (24 * i + h)%nat)) (seq 0 24).
  Proof.
    intros NN NE. destruct (distribute_function e d0 w NN NE) as (g & E & G). unfold random_any. rewrite E. cbn [bind].
    assert (L : length (map (fun t => (t, g t)) (hours_index d0 (length w))) = (24 * length w)%nat) by (rewrite map_length; unfold hours_index; apply grid_length).
    rewrite L. set (f := fun t => random_value lnf powf (g t) (draw (Z.to_nat ((t - d0 * us_day) / us_hour)))).
    assert (EQ : map (fun q => (fst (fst q), random_value lnf powf (snd (fst q)) (draw (snd q)))) (combine (map (fun t => (t, g t)) (hours_index d0 (length w))) (seq 0 (24 * length w)))
                 = map (fun t => (t, f t)) (hours_index d0 (length w))).
    { unfold hours_index, grid. rewrite map_map. rewrite <- (map_id (seq 0 (24 * length w))) at 2. rewrite TempCourse.combine_maps, !map_map. cbn [fst snd].
      apply map_ext. intro i. unfold f. do 4 f_equal.
      replace (d0 * us_day + Z.of_nat i * us_hour - d0 * us_day) with (Z.of_nat i * us_hour) by ring. rewrite Z.div_mul by discriminate. symmetry. apply Nat2Z.id. }
    rewrite EQ. eexists. split; [reflexivity|]. split; [rewrite map_map; apply map_id|]. intros i v Hv Hn.
    etransitivity; [apply (values_on_map_hours f d0 (length w) i); apply nth_error_Some; congruence|]. apply map_ext_in. intros h Hh. apply in_seq in Hh.
    unfold f. rewrite (G i h v Hv) by (assumption || lia). do 2 f_equal.
    replace (stamp (d0 + Z.of_nat i) h - d0 * us_day) with (Z.of_nat (24 * i + h) * us_hour) by (unfold stamp, us_day, us_hour; lia).
    rewrite Z.div_mul by discriminate. apply Nat2Z.id.
  Qed.
End Series.

(** ** doubles *)
Open Scope R_scope.
Lemma nan_any : n_isnan (n_nan : float) = true.
Proof. vm_compute. reflexivity. Qed.
Lemma lits : fval 0 = 0 /\ fval 1 = 1 /\ fval 1024 = 1024 /\ fval 0x1p20 = 1048576 /\ fval 0x1p-20 = / 1048576.
Proof. repeat split; unfold fval; vm_compute; lra. Qed.
Lemma fraction_spec x : fraction x -> ffin x /\ 0 <= fval x <= 1.
Proof.
  unfold fraction. rewrite andb_true_iff. intros [A B]. assert (F : ffin x) by exact (between_finite 0%float x 1%float eq_refl eq_refl A B).
  apply leb_true in A; [|reflexivity|exact F]. apply leb_true in B; [|exact F|reflexivity]. destruct lits as (L0 & L1 & _). rewrite L0 in A. rewrite L1 in B. auto.
Qed.
Lemma amount_spec x : amount x -> ffin x /\ 0 <= fval x <= 1048576.
Proof.
  unfold amount. rewrite andb_true_iff. intros [A B]. assert (F : ffin x) by exact (between_finite 0%float x 0x1p20%float eq_refl eq_refl A B).
  apply leb_true in A; [|reflexivity|exact F]. apply leb_true in B; [|exact F|reflexivity]. destruct lits as (L0 & _ & _ & L1 & _). rewrite L0 in A. rewrite L1 in B. auto.
Qed.
Lemma duration_spec x : duration x -> ffin x /\ / 1048576 <= fval x <= 1048576.
Proof.
  unfold duration. rewrite andb_true_iff. intros [A B]. assert (F : ffin x) by exact (between_finite 0x1p-20%float x 0x1p20%float eq_refl eq_refl A B).
  apply leb_true in A; [|reflexivity|exact F]. apply leb_true in B; [|exact F|reflexivity]. destruct lits as (_ & _ & _ & L1 & L2). rewrite L2 in A. rewrite L1 in B. auto.
Qed.
Lemma base_spec x : base x <-> ffin x /\ 0 <= fval x <= 1024.
Proof.
  destruct lits as (L0 & _ & L1 & _). unfold base. rewrite andb_true_iff. split.
  - intros [A B]. assert (F : ffin x) by exact (between_finite 0%float x 1024%float eq_refl eq_refl A B).
    apply leb_true in A; [|reflexivity|exact F]. apply leb_true in B; [|exact F|reflexivity]. rewrite L0 in A. rewrite L1 in B. auto.
  - intros [F [A B]]. rewrite !leb_true by (reflexivity || exact F). rewrite L0, L1. auto.
Qed.

(** *** Angstroem *)
Section Angstroem.
  Variables a b s dl p : float.
  Hypothesis Ha : fraction a.
  Hypothesis Hb : fraction b.
  Hypothesis Hs : amount s.
  Hypothesis Hl : duration dl.
  Hypothesis Hp : amount p.
  Hypothesis Hsl : (s <=? dl)%float = true.
  Let v := angstroem_value s dl p a b.

  Lemma cap_large : 1000000000000 <= 100 * cap.
  Proof. assert (bpow radix2 40 <= cap) by (unfold cap; apply bpow_le; lia). assert (E : bpow radix2 40 = 1099511627776) by (cbn; lra). lra. Qed.

  Lemma angstroem_error : app v ((fval a + fval b * fval s / fval dl) * fval p) (1 / 10 ^ 15 * fval p + 1 / 10 ^ 300).
  Proof.
    destruct (fraction_spec a Ha) as [Fa Ra], (fraction_spec b Hb) as [Fb Rb], (amount_spec s Hs) as [Fs Rs], (duration_spec dl Hl) as [Fl Rl], (amount_spec p Hp) as [Fp Rp].
    assert (SL : fval s <= fval dl) by (apply leb_true; assumption).
    pose proof u64_pos as U. pose proof eta64_pos as E0. pose proof eta64_small' as E1. pose proof cap_large as CL.
    assert (U' : u64 <= 1 / 9 * / 10 ^ 15) by (unfold u64; lra).
    set (D := fval dl) in *. assert (DP : 0 < D) by lra.
    assert (ID : 0 < / D <= 1048576) by (split; [apply Rinv_0_lt_compat; lra|rewrite <- (Rinv_inv 1048576); apply Rinv_le; lra]).
    assert (DI : D * / D = 1) by (apply Rinv_r; lra).
    (* b * s *)
    pose proof (app_mul b s (fval b) (fval s) 0 0 1 D (app_exact b Fb) (app_exact s Fs) ltac:(rewrite Rabs_pos_eq; lra) ltac:(rewrite Rabs_pos_eq; lra) ltac:(lra)) as M1.
    apply app_weaken with (e' := u64 * D + eta64) in M1; [|lra].
    (* / dl *)
    assert (E1' : eta64 <= 1) by lra.
    assert (BS : Rabs (fval b * fval s) <= D) by (rewrite Rabs_pos_eq by (apply Rmult_le_pos; lra); nra).
    assert (SUM : (D + (u64 * D + eta64)) / D <= 1 + u64 + eta64 * 1048576).
    { unfold Rdiv. rewrite Rmult_plus_distr_r, Rmult_plus_distr_r, Rmult_assoc, DI. assert (eta64 * / D <= eta64 * 1048576) by (apply Rmult_le_compat_l; lra). lra. }
    assert (SUM2 : (u64 * D + eta64) / D <= u64 + eta64 * 1048576).
    { unfold Rdiv. rewrite Rmult_plus_distr_r, Rmult_assoc, DI. assert (eta64 * / D <= eta64 * 1048576) by (apply Rmult_le_compat_l; lra). lra. }
    assert (ET : eta64 * 1048576 <= 11 / 10 ^ 300) by lra.
    assert (EU : eta64 * 1048576 <= u64 / 100) by (unfold u64; lra).
    pose proof (app_div (b * s)%float dl _ _ D D M1 BS DP ltac:(fold D; rewrite Rabs_pos_eq; lra) ltac:(lra)) as M2. fold D in M2.
    assert (UU : u64 * ((D + (u64 * D + eta64)) / D) <= u64 * (102 / 100)) by (apply Rmult_le_compat_l; lra).
    apply app_weaken with (e' := 204 / 100 * u64) in M2; [|lra].
    (* a + *)
    assert (Q : 0 <= fval b * fval s / D <= 1).
    { assert (0 <= fval b * fval s <= D) by (split; [apply Rmult_le_pos; lra|rewrite <- (Rabs_pos_eq (fval b * fval s)) by (apply Rmult_le_pos; lra); exact BS]).
      unfold Rdiv. split; [apply Rmult_le_pos; lra|]. apply Rle_trans with (D * / D); [apply Rmult_le_compat_r; lra|lra]. }
    pose proof (app_add a (b * s / dl)%float (fval a) _ 0 _ 1 1 (app_exact a Fa) M2 ltac:(rewrite Rabs_pos_eq; lra) ltac:(rewrite Rabs_pos_eq; lra) ltac:(lra)) as M3.
    apply app_weaken with (e' := 41 / 10 * u64) in M3; [|unfold u64; lra].
    (* * p *)
    set (P := fval p) in *.
    assert (B2 : (2 + 41 / 10 * u64) * (P + 0) <= 3 * P) by (rewrite Rplus_0_r; apply Rmult_le_compat_r; lra).
    pose proof (app_mul (a + b * s / dl)%float p _ P _ 0 2 P M3 (app_exact p Fp) ltac:(rewrite Rabs_pos_eq; lra) ltac:(rewrite Rabs_pos_eq; lra) ltac:(lra)) as M4.
    assert (UP : u64 * P <= 1 / 9 * / 10 ^ 15 * P) by (apply Rmult_le_compat_r; lra).
    assert (UB : u64 * ((2 + 41 / 10 * u64) * (P + 0)) <= u64 * (3 * P)) by (apply Rmult_le_compat_l; lra).
    assert (EP : eta64 <= 1 / 10 ^ 300) by lra.
    apply app_weaken with (e' := 1 / 10 ^ 15 * P + 1 / 10 ^ 300) in M4; [exact M4|]. lra.
  Qed.
  (** the value, operation by operation *)
  Lemma angstroem_shape : ffin v /\ fval v = rnd (rnd (fval a + rnd (rnd (fval b * fval s) / fval dl)) * fval p).
  Proof.
    destruct (fraction_spec a Ha) as [Fa Ra], (fraction_spec b Hb) as [Fb Rb], (amount_spec s Hs) as [Fs Rs], (duration_spec dl Hl) as [Fl Rl], (amount_spec p Hp) as [Fp Rp].
    assert (SL : fval s <= fval dl) by (apply leb_true; assumption).
    destruct (fmul_unit b s Fb Rb (conj Fs (proj1 Rs))) as [[F1 P1] L1].
    assert (V1 : fval (b * s)%float = rnd (fval b * fval s)).
    { apply fmul_correct; [exact Fb|exact Fs|]. apply abs_small with s; nra. }
    set (D := fval dl) in *. assert (DP : 0 < D) by lra. assert (ID : 0 < / D) by (apply Rinv_0_lt_compat; lra).
    assert (Q : 0 <= fval (b * s)%float / D <= 1).
    { split; [unfold Rdiv; apply Rmult_le_pos; lra|]. apply Rmult_le_reg_r with D; [lra|]. unfold Rdiv. rewrite Rmult_assoc, Rinv_l; lra. }
    destruct lits as (_ & L1' & _).
    destruct (fdiv_correct (b * s)%float dl F1 ltac:(fold D; lra) (abs_small _ 1%float (proj1 Q) ltac:(rewrite L1'; apply Q))) as [V2 F2]. fold D in V2.
    assert (Q2 : 0 <= fval (b * s / dl)%float <= 1).
    { rewrite V2. split; [apply rnd_nonneg, Q|]. rewrite <- L1'. apply rnd_le_fval. rewrite L1'. apply Q. }
    assert (LB : fval 1048576%float = 1048576) by (unfold fval; vm_compute; lra).
    destruct (fadd_correct a (b * s / dl)%float Fa F2 (abs_small (fval a + fval (b * s / dl)%float) 1048576%float ltac:(lra) ltac:(rewrite LB; lra))) as [V3 F3].
    assert (L2 : fval 2%float = 2) by (unfold fval; vm_compute; lra).
    assert (Q3 : 0 <= fval (a + b * s / dl)%float <= 2).
    { rewrite V3. split; [apply rnd_nonneg; lra|]. rewrite <- L2. apply rnd_le_fval. rewrite L2. lra. }
    assert (LC : fval 0x1p30%float = 1073741824) by (unfold fval; vm_compute; lra).
    destruct (fmul_correct (a + b * s / dl)%float p F3 Fp (abs_small (fval (a + b * s / dl)%float * fval p) 0x1p30%float ltac:(apply Rmult_le_pos; lra) ltac:(rewrite LC; nra))) as [V4 F4].
    split; [exact F4|]. unfold v, angstroem_value. etransitivity; [exact V4|]. rewrite V3, V2, V1. reflexivity.
  Qed.
  Lemma angstroem_nonneg : 0 <= fval v.
  Proof.
    destruct angstroem_shape as [_ ->]. destruct (fraction_spec a Ha) as [Fa Ra], (fraction_spec b Hb) as [Fb Rb], (amount_spec s Hs) as [Fs Rs], (duration_spec dl Hl) as [Fl Rl], (amount_spec p Hp) as [Fp Rp].
    apply rnd_nonneg, Rmult_le_pos; [|lra]. apply rnd_nonneg. apply Rplus_le_le_0_compat; [lra|]. apply rnd_nonneg. unfold Rdiv. apply Rmult_le_pos; [apply rnd_nonneg; nra|].
    left. apply Rinv_0_lt_compat. lra.
  Qed.
End Angstroem.
Lemma angstroem_mono a b s s' dl p p' : fraction a -> fraction b -> amount s -> amount s' -> duration dl -> amount p -> amount p' ->
  (s <=? dl)%float = true -> (s' <=? dl)%float = true -> (s <=? s')%float = true -> (p <=? p')%float = true ->
  fval (angstroem_value s dl p a b) <= fval (angstroem_value s' dl p' a b).
Proof.
  intros Ha Hb Hs Hs' Hl Hp Hp' L L' SS PP.
  destruct (angstroem_shape a b s dl p Ha Hb Hs Hl Hp L) as [_ ->], (angstroem_shape a b s' dl p' Ha Hb Hs' Hl Hp' L') as [_ ->].
  destruct (fraction_spec a Ha) as [Fa Ra], (fraction_spec b Hb) as [Fb Rb], (amount_spec s Hs) as [Fs Rs], (amount_spec s' Hs') as [Fs' Rs'], (duration_spec dl Hl) as [Fl Rl], (amount_spec p Hp) as [Fp Rp], (amount_spec p' Hp') as [Fp' Rp'].
  apply leb_true in SS; [|exact Fs|exact Fs']. apply leb_true in PP; [|exact Fp|exact Fp'].
  assert (ID : 0 < / fval dl) by (apply Rinv_0_lt_compat; lra).
  apply rnd_le. apply Rmult_le_compat; [|lra| |exact PP].
  - apply rnd_nonneg. apply Rplus_le_le_0_compat; [lra|]. apply rnd_nonneg. unfold Rdiv. apply Rmult_le_pos; [apply rnd_nonneg; nra|lra].
  - apply rnd_le, Rplus_le_compat_l, rnd_le. unfold Rdiv. apply Rmult_le_compat_r; [lra|]. apply rnd_le. nra.
Qed.

(** *** Bristow and Campbell *)
Lemma nan_sub x y : PrimFloat.is_nan x = true \/ PrimFloat.is_nan y = true -> PrimFloat.is_nan (x - y)%float = true.
Proof. rewrite !is_nan_equiv, sub_equiv. intros [H|H]; destruct (Prim2B x), (Prim2B y); try discriminate; reflexivity. Qed.
Lemma nan_add x y : PrimFloat.is_nan x = true \/ PrimFloat.is_nan y = true -> PrimFloat.is_nan (x + y)%float = true.
Proof. rewrite !is_nan_equiv, add_equiv. intros [H|H]; destruct (Prim2B x), (Prim2B y); try discriminate; reflexivity. Qed.
Lemma nan_div x y : PrimFloat.is_nan x = true \/ PrimFloat.is_nan y = true -> PrimFloat.is_nan (x / y)%float = true.
Proof. rewrite !is_nan_equiv, div_equiv. intros [H|H]; destruct (Prim2B x), (Prim2B y); try discriminate; reflexivity. Qed.
Lemma nan_range lo nx hi : PrimFloat.is_nan lo = true \/ PrimFloat.is_nan nx = true \/ PrimFloat.is_nan hi = true -> PrimFloat.is_nan (day_range lo nx hi) = true.
Proof. intros [H|[H|H]]; unfold day_range; apply nan_sub; [right; apply nan_div; left; apply nan_add; left|right; apply nan_div; left; apply nan_add; right|left]; exact H. Qed.

Lemma twice_format x : generic_format radix2 fexp64 (2 * fval x).
Proof.
  replace (2 * fval x) with (fval x * bpow radix2 1) by (change (bpow radix2 1) with 2; ring).
  apply (Flocq.Prop.Mult_error.mult_bpow_pos_exact_FLT radix2 (SpecFloat.emin FloatOps.prec FloatOps.emax) FloatOps.prec); [|lia]. apply fval_format.
Qed.
Lemma abs_mid a x : - fval x <= a -> a <= fval x -> Rabs (rnd a) < big.
Proof.
  intros H1 H2. apply Rle_lt_trans with (fval x); [|apply fval_lt_big']. apply Rabs_le. split; [|apply rnd_le_fval, H2].
  rewrite <- (rnd_fval x). rewrite <- round_NE_opp. apply rnd_le. exact H1.
Qed.
Lemma temperatures_spec lo nx hi : temperatures lo nx hi -> ffin lo /\ ffin nx /\ ffin hi /\
  -500 <= fval lo <= fval hi /\ -500 <= fval nx <= fval hi /\ fval hi <= 500.
Proof.
  unfold temperatures. rewrite !andb_true_iff. intros [[[[A B] C] D] E].
  assert (FH : ffin hi).
  { revert A B C D E. rewrite !leb_equiv. unfold ffin.
    destruct (Prim2B hi) as [s|s| |s m e H] eqn:EH; try reflexivity; destruct (Prim2B lo) as [s1|s1| |s1 m1 e1 H1] eqn:EL; cbn; try discriminate; destruct s; try discriminate; try destruct s1; try discriminate. }
  assert (FL : ffin lo) by exact (between_finite (-500)%float lo hi eq_refl (proj1 (ffin_spec hi) FH) A D).
  assert (FN : ffin nx) by exact (between_finite (-500)%float nx hi eq_refl (proj1 (ffin_spec hi) FH) B E).
  apply leb_true in A; [|reflexivity|exact FL]. apply leb_true in B; [|reflexivity|exact FN]. apply leb_true in C; [|exact FH|reflexivity].
  apply leb_true in D; [|exact FL|exact FH]. apply leb_true in E; [|exact FN|exact FH].
  assert (E1 : fval (-500)%float = -500) by (unfold fval; vm_compute; lra). assert (E2 : fval 500%float = 500) by (unfold fval; vm_compute; lra).
  rewrite E1 in A, B. rewrite E2 in C. repeat split; assumption || lra.
Qed.
Lemma range_base lo nx hi : temperatures lo nx hi -> base (day_range lo nx hi).
Proof.
  intro H. destruct (temperatures_spec lo nx hi H) as (FL & FN & FH & RL & RN & RH).
  assert (L1 : fval 1000%float = 1000) by (unfold fval; vm_compute; lra). assert (L2 : fval 2%float = 2) by (unfold fval; vm_compute; lra).
  assert (L5 : fval 500%float = 500) by (unfold fval; vm_compute; lra).
  destruct (fadd_correct lo nx FL FN (abs_mid (fval lo + fval nx) 1000%float ltac:(rewrite L1; lra) ltac:(rewrite L1; lra))) as [V1 F1].
  assert (B1 : -1000 <= fval (lo + nx)%float <= 2 * fval hi).
  { rewrite V1. split.
    - assert (E : fval (-1000)%float = -1000) by (unfold fval; vm_compute; lra). rewrite <- E. apply rnd_ge_fval. rewrite E. lra.
    - rewrite <- (round_generic radix2 fexp64 ZnearestE (2 * fval hi) (twice_format hi)). apply rnd_le. lra. }
  destruct (fdiv_correct (lo + nx)%float 2%float F1 ltac:(rewrite L2; lra) (abs_mid (fval (lo + nx)%float / fval 2%float) 500%float ltac:(rewrite L2, L5; lra) ltac:(rewrite L2, L5; lra))) as [V2 F2].
  assert (B2 : -500 <= fval ((lo + nx) / 2)%float <= fval hi).
  { rewrite V2, L2. split.
    - assert (E : fval (-500)%float = -500) by (unfold fval; vm_compute; lra). rewrite <- E. apply rnd_ge_fval. rewrite E. lra.
    - apply rnd_le_fval. lra. }
  destruct (fsub_correct hi ((lo + nx) / 2)%float FH F2 (abs_mid (fval hi - fval ((lo + nx) / 2)%float) 1000%float ltac:(rewrite L1; lra) ltac:(rewrite L1; lra))) as [V3 F3].
  apply base_spec. split; [exact F3|]. unfold day_range. rewrite V3. split; [apply rnd_nonneg; lra|].
  apply Rle_trans with 1000; [|lra]. rewrite <- L1. apply rnd_le_fval. rewrite L1. lra.
Qed.

Lemma fopp_val x : ffin x -> ffin (- x)%float /\ fval (- x)%float = - fval x.
Proof. intro F. apply of_uint63_opp. split; [exact F|reflexivity]. Qed.

Section Bristow.
  Variable expf : float -> float.
  Variable powf : float -> float -> float.
  Hypothesis HE : exp_like expf.
  Hypothesis HW : pow_like powf.
  Variables A C avg : float.
  Hypothesis HA : fraction A.
  Hypothesis HC : exponent C.
  Hypothesis HM : ((0 <=? avg) && (avg <=? 0x1p100))%float = true.
  Let B := bristow_B expf avg.

  Lemma bristow_B_spec : ffin B /\ 0 <= fval B <= 1.
  Proof.
    apply andb_true_iff in HM as [H1 H2]. assert (FA : ffin avg) by exact (between_finite 0%float avg 0x1p100%float eq_refl eq_refl H1 H2).
    apply leb_true in H1; [|reflexivity|exact FA]. apply leb_true in H2; [|exact FA|reflexivity]. rewrite (proj1 lits) in H1.
    assert (E1 : fval (lit (-154) 3 : float) = -5548434740920451 / 36028797018963968) by (unfold fval; vm_compute; lra).
    assert (F1 : ffin (lit (-154) 3 : float)) by reflexivity.
    assert (E2 : fval (lit 36 3 : float) = 5188146770730811 / 144115188075855872) by (unfold fval; vm_compute; lra).
    assert (F2 : ffin (lit 36 3 : float)) by reflexivity.
    destruct (fmul_correct (lit (-154) 3 : float) avg F1 FA) as [V FK].
    { apply abs_mid with 0x1p100%float; rewrite E1; lra. }
    assert (K : (lit (-154) 3 * avg <=? 0)%float = true).
    { apply leb_true; [exact FK|reflexivity|]. rewrite V, (proj1 lits). rewrite <- rnd_0. apply rnd_le. rewrite E1. nra. }
    destruct HE as (R & _). apply R, fraction_spec in K as [FX RX].
    assert (U : 0 <= fval (lit 36 3 : float) <= 1) by (rewrite E2; lra).
    destruct (fmul_unit (lit 36 3 : float) (expf (lit (-154) 3 * avg)%float) F2 U (conj FX (proj1 RX))) as [[FB PB] LB].
    split; [exact FB|]. split; [exact PB|]. eapply Rle_trans; [exact LB|lra].
  Qed.
  Lemma power_spec dT : base dT -> fnn (powf dT C).
  Proof.
    intro HB. destruct HW as (R & _). specialize (R dT C HB HC). apply andb_true_iff in R as [R1 R2].
    assert (F : ffin (powf dT C)).
    { revert R1 R2. rewrite leb_equiv, ltb_equiv. unfold ffin. destruct (Prim2B (powf dT C)) as [s|s| |s m e H]; try reflexivity; cbn; try discriminate; destruct s; discriminate. }
    split; [exact F|]. apply leb_true in R1; [|reflexivity|exact F]. rewrite (proj1 lits) in R1. exact R1.
  Qed.
  Lemma argument_spec dT : base dT -> ffin (- B * powf dT C)%float /\ fval (- B * powf dT C)%float = rnd (- fval B * fval (powf dT C)) /\ fval (- B * powf dT C)%float <= 0.
  Proof.
    intro HB. destruct (power_spec dT HB) as [FP PP]. destruct bristow_B_spec as [FB RB]. destruct (fopp_val B FB) as [FO VO].
    destruct (fmul_correct (- B)%float (powf dT C) FO FP) as [V F].
    { apply abs_mid with (powf dT C); rewrite VO; nra. }
    rewrite VO in V. split; [exact F|]. split; [exact V|]. rewrite V. rewrite <- rnd_0. apply rnd_le. nra.
  Qed.
  Let e dT := expf (- B * powf dT C)%float.
  Lemma e_spec dT : base dT -> ffin (e dT) /\ 0 <= fval (e dT) <= 1.
  Proof.
    intro HB. destruct (argument_spec dT HB) as (F & _ & L). destruct HE as (R & _). apply fraction_spec, R. apply leb_true; [exact F|reflexivity|]. rewrite (proj1 lits). exact L.
  Qed.
  Lemma e_mono d d' : base d -> base d' -> (d <=? d')%float = true -> fval (e d') <= fval (e d).
  Proof.
    intros HB HB' L. destruct (argument_spec d HB) as (F & V & N), (argument_spec d' HB') as (F' & V' & N').
    destruct (e_spec d HB) as [FE _], (e_spec d' HB') as [FE' _]. destruct (power_spec d HB) as [FP PP], (power_spec d' HB') as [FP' PP']. destruct bristow_B_spec as [FB RB].
    apply leb_true; [exact FE'|exact FE|]. destruct HE as (_ & _ & M). apply M.
    - apply leb_true; [exact F'|exact F|]. rewrite V, V'. apply rnd_le. destruct HW as (_ & _ & MW). specialize (MW d d' C HB HB' HC L).
      apply leb_true in MW; [|exact FP|exact FP']. nra.
    - apply leb_true; [exact F|reflexivity|]. rewrite (proj1 lits). exact N.
  Qed.
  Lemma e_zero d : (d =? 0)%float = true -> base d -> fval (e d) = 1.
  Proof.
    intros Z HB. destruct (argument_spec d HB) as (F & V & N). destruct (e_spec d HB) as [FE _]. destruct (power_spec d HB) as [FP PP].
    destruct HW as (_ & ZW & _). specialize (ZW d C Z HC). apply eqb_true in ZW; [|exact FP|reflexivity]. rewrite (proj1 lits) in ZW.
    rewrite ZW, Rmult_0_r, rnd_0 in V. destruct HE as (_ & ZE & _). assert (K : (e d =? 1)%float = true).
    { apply ZE. apply eqb_true; [exact F|reflexivity|]. rewrite V. symmetry. apply lits. }
    apply eqb_true in K; [|exact FE|reflexivity]. rewrite K. apply lits.
  Qed.
  (** the transmissivity and the radiation *)
  Let t dT := (1 - e dT)%float.
  Lemma t_spec dT : base dT -> fnn (t dT) /\ fval (t dT) <= 1 /\ fval (t dT) = rnd (1 - fval (e dT)).
  Proof.
    intro HB. destruct (e_spec dT HB) as [FE RE]. destruct lits as (_ & L1 & _).
    assert (N1 : fnn 1%float) by (split; [reflexivity|rewrite L1; lra]).
    destruct (fsub_ordered 1%float (e dT) N1 (conj FE (proj1 RE)) ltac:(rewrite L1; lra)) as [FT LT]. split; [exact FT|]. split; [rewrite <- L1; exact LT|].
    rewrite <- L1. apply fsub_correct; [reflexivity|exact FE|]. apply abs_small with 1%float; rewrite L1; lra.
  Qed.
  Lemma At_spec dT : base dT -> fnn (A * t dT)%float /\ fval (A * t dT)%float = rnd (fval A * fval (t dT)) /\ fval (A * t dT)%float <= fval A.
  Proof.
    intro HB. destruct (t_spec dT HB) as (FT & LT & _). destruct (fraction_spec A HA) as [FA RA].
    destruct (fmul_unit A (t dT) FA RA FT) as [FP LP]. split; [exact FP|].
    assert (V : fval (A * t dT)%float = rnd (fval A * fval (t dT))).
    { apply fmul_correct; [exact FA|apply FT|]. destruct FT as [_ P]. apply abs_small with (t dT); nra. }
    split; [exact V|]. rewrite V. apply rnd_le_fval. destruct FT as [_ P]. nra.
  Qed.
  Lemma bristow_is dT pot : bristow_value expf powf A C B dT pot = (A * t dT * pot)%float.
  Proof. reflexivity. Qed.
  Lemma bristow_shape dT pot : base dT -> fnn pot ->
    fnn (A * t dT * pot)%float /\ fval (A * t dT * pot)%float = rnd (fval (A * t dT)%float * fval pot) /\
    fval (A * t dT * pot)%float <= fval (A * pot)%float /\ fval (A * pot)%float <= fval pot /\ ffin (A * pot)%float.
  Proof.
    intros HB HP. destruct (At_spec dT HB) as (FT & _ & LT). destruct (fraction_spec A HA) as [FA RA].
    destruct FT as [F P]. destruct (fmul_unit (A * t dT)%float pot F ltac:(lra) HP) as [F' L']. split; [exact F'|].
    destruct HP as [FP PP].
    assert (V : fval (A * t dT * pot)%float = rnd (fval (A * t dT)%float * fval pot)).
    { apply fmul_correct; [exact F|exact FP|]. apply abs_small with pot; nra. }
    destruct (fmul_unit A pot FA RA (conj FP PP)) as [[F2 _] L2].
    assert (V2 : fval (A * pot)%float = rnd (fval A * fval pot)).
    { apply fmul_correct; [exact FA|exact FP|]. apply abs_small with pot; nra. }
    split; [exact V|]. split; [rewrite V, V2; apply rnd_le; nra|]. split; assumption.
  Qed.
  Lemma bristow_mono d d' pot pot' : base d -> base d' -> fnn pot -> fnn pot' -> (d <=? d')%float = true -> fval pot <= fval pot' ->
    fval (A * t d * pot)%float <= fval (A * t d' * pot')%float.
  Proof.
    intros HB HB' HP HP' L LP. destruct (bristow_shape d pot HB HP) as (_ & -> & _), (bristow_shape d' pot' HB' HP') as (_ & -> & _).
    destruct (At_spec d HB) as ([_ P] & V & _), (At_spec d' HB') as ([_ P'] & V' & _). destruct (fraction_spec A HA) as [FA RA].
    apply rnd_le. apply Rmult_le_compat; [exact P|apply HP| |exact LP]. rewrite V, V'. apply rnd_le. apply Rmult_le_compat_l; [lra|].
    destruct (t_spec d HB) as (_ & _ & ->), (t_spec d' HB') as (_ & _ & ->). apply rnd_le. pose proof (e_mono d d' HB HB' L). lra.
  Qed.
  Lemma bristow_zero d pot : (d =? 0)%float = true -> base d -> fnn pot -> fval (A * t d * pot)%float = 0.
  Proof.
    intros Z HB HP. destruct (bristow_shape d pot HB HP) as (_ & -> & _). destruct (At_spec d HB) as (_ & -> & _). destruct (t_spec d HB) as (_ & _ & ->).
    rewrite (e_zero d Z HB). replace (1 - 1) with 0 by ring. rewrite rnd_0, Rmult_0_r, rnd_0, Rmult_0_l, rnd_0. reflexivity.
  Qed.
End Bristow.

(** *** random wind *)
Lemma exp_ge x : 1 + x <= exp x.
Proof. destruct (Req_dec x 0) as [->|N]; [rewrite exp_0; lra|]. left. apply exp_ineq1, N. Qed.
Lemma ln_le_minus x : 0 < x -> ln x <= x - 1.
Proof. intro H. pose proof (exp_ge (ln x)) as E. rewrite (exp_ln x H) in E. lra. Qed.
Lemma ln2_upper : ln 2 <= 7 / 10.
Proof.
  assert (E : 2 <= exp (7 / 10)).
  { assert (P : forall x, exp (10 * x) = exp x ^ 10) by (intro x; replace (10 * x) with (x + x + x + x + x + x + x + x + x + x) by ring; rewrite !exp_plus; ring).
    pose proof (exp_ge (7 / 1000)) as A. replace (7 / 10) with (10 * (10 * (7 / 1000))) by lra. rewrite !P.
    assert (B : 1072 / 1000 <= exp (7 / 1000) ^ 10) by (apply Rle_trans with ((1 + 7 / 1000) ^ 10); [lra|apply pow_incr; lra]).
    apply Rle_trans with ((1072 / 1000) ^ 10); [lra|apply pow_incr; lra]. }
  rewrite <- (ln_exp (7 / 10)). destruct E as [E|E]; [left; apply ln_increasing; lra|rewrite E; lra].
Qed.
Lemma ln_mono a b : 0 < a -> a <= b -> ln a <= ln b.
Proof. intros H [L|<-]; [left; apply ln_increasing; assumption|lra]. Qed.
Lemma exp_near E : Rabs E <= 1 / 2 -> Rabs (exp E - 1) <= 2 * Rabs E.
Proof.
  intro H. pose proof (exp_ge E) as A. pose proof (exp_ge (- E)) as B. pose proof (exp_pos E) as P.
  assert (M : exp E * exp (- E) = 1) by (rewrite <- exp_plus, Rplus_opp_r; apply exp_0).
  apply Flocq.Core.Raux.Rabs_le_inv in H. destruct (Rcase_abs E) as [N|N].
  - rewrite (Rabs_left E N). apply Rabs_le. split; [lra|]. assert (exp E <= 1) by (rewrite <- exp_0; left; apply exp_increasing, N). lra.
  - rewrite (Rabs_right E N). apply Rabs_le. split; [lra|]. assert (exp E * (1 - E) <= 1) by (rewrite <- M; apply Rmult_le_compat_l; lra).
    assert ((1 + 2 * E) * (1 - E) >= 1) by nra. nra.
Qed.

Section Random.
  Variable lnf : float -> float.
  Variable powf : float -> float -> float.
  Hypothesis HL : accurate_ln lnf.
  Hypothesis HP : accurate_pow powf.

  Lemma ln_draw u : drawn u -> 1 / 10 ^ 16 <= - ln (fval u) <= 371 / 10 /\ -371 / 10 <= ln (- ln (fval u)) <= 371 / 10.
  Proof.
    intros [_ (k & Hk & V)]. assert (K1 : 1 <= IZR k) by (apply IZR_le; lia). assert (K2 : IZR k <= 2 ^ 53 - 1).
    { replace (2 ^ 53 - 1) with (IZR 9007199254740991) by lra. apply IZR_le. lia. }
    assert (PW : 2 ^ 53 = 9007199254740992) by lra.
    assert (L53 : ln (/ 2 ^ 53) >= -371 / 10).
    { rewrite ln_Rinv by lra. assert (E : ln (2 ^ 53) = INR 53 * ln 2) by (apply ln_pow; lra). rewrite E. change (INR 53) with (INR (50 + 3)). rewrite plus_INR. pose proof ln2_upper. 
      assert (I50 : INR 50 = 50) by (rewrite INR_IZR_INZ; reflexivity). assert (I3 : INR 3 = 3) by (rewrite INR_IZR_INZ; reflexivity). rewrite I50, I3. lra. }
    assert (RU : / 2 ^ 53 <= fval u <= 1 - / 2 ^ 53) by (rewrite V; lra).
    assert (PI : 0 < / 2 ^ 53) by lra.
    assert (A : -371 / 10 <= ln (fval u)) by (pose proof (ln_mono (/ 2 ^ 53) (fval u) PI (proj1 RU)); lra).
    assert (B : ln (fval u) <= - / 2 ^ 53) by (pose proof (ln_le_minus (fval u) ltac:(lra)); lra).
    split; [lra|]. split.
    - pose proof (ln_mono (/ 2 ^ 53) (- ln (fval u)) PI ltac:(lra)). lra.
    - pose proof (ln_le_minus (- ln (fval u)) ltac:(lra)). lra.
  Qed.
  Lemma factor_bound u : drawn u -> 0 < Rpower (- ln (fval u)) (3 / 10) <= 298 / 100.
  Proof.
    intro D. destruct (ln_draw u D) as [R _]. set (X := - ln (fval u)) in *. split; [apply exp_pos|].
    set (r := Rpower X (3 / 10)). assert (PR : 0 < r) by apply exp_pos.
    assert (E : r ^ 10 = X ^ 3).
    { rewrite <- (Rpower_pow 10 r PR), <- (Rpower_pow 3 X) by lra. unfold r. rewrite Rpower_mult. f_equal. rewrite !INR_IZR_INZ. cbn [Z.of_nat Pos.of_succ_nat Pos.succ]. lra. }
    destruct (Rle_or_lt r (298 / 100)) as [L|L]; [exact L|exfalso].
    assert (A : (298 / 100) ^ 10 <= r ^ 10) by (apply pow_incr; lra). assert (B : X ^ 3 <= (371 / 10) ^ 3) by (apply pow_incr; lra). lra.
  Qed.
  Lemma factor_error u : drawn u -> app (powf (- lnf u) 0x1.3333333333333p-2)%float (Rpower (- ln (fval u)) (3 / 10)) (4 / 10 ^ 15 * Rpower (- ln (fval u)) (3 / 10)).
  Proof.
    intro D. destruct (ln_draw u D) as [R RL]. destruct (HL u D) as [FL EL]. apply ffin_spec in FL. set (X := - ln (fval u)) in *.
    destruct (fopp_val (lnf u) FL) as [FO VO]. set (x := (- lnf u)%float) in *.
    assert (PW : 2 ^ 50 = 1125899906842624) by lra. rewrite PW in EL.
    assert (EX : Rabs (fval x - X) <= / 1125899906842624 * X).
    { rewrite VO. unfold X. replace (- fval (lnf u) - - ln (fval u)) with (- (fval (lnf u) - ln (fval u))) by ring. rewrite Rabs_Ropp.
      rewrite <- (Rabs_pos_eq (- ln (fval u))) by (unfold X in R; lra). rewrite Rabs_Ropp. exact EL. }
    set (d := (fval x - X) / X). assert (XP : 0 < X) by lra.
    assert (DX : fval x = X * (1 + d)) by (unfold d; field; lra).
    assert (DB : Rabs d <= / 1125899906842624).
    { unfold d, Rdiv. rewrite Rabs_mult, (Rabs_pos_eq (/ X)) by (left; apply Rinv_0_lt_compat; lra). apply Rmult_le_reg_r with X; [lra|]. rewrite Rmult_assoc, Rinv_l by lra. lra. }
    apply Flocq.Core.Raux.Rabs_le_inv in DB.
    assert (XR : 0 < fval x <= 38) by (rewrite DX; split; [apply Rmult_lt_0_compat; lra|nra]).
    assert (HB : base x) by (apply base_spec; split; [exact FO|lra]).
    assert (HS : (0x1p-60 <=? x)%float = true).
    { apply leb_true; [reflexivity|exact FO|]. assert (V : fval 0x1p-60%float = / 1152921504606846976) by (unfold fval; vm_compute; lra). rewrite V, DX. nra. }
    destruct (HP x HB HS) as [FP EP]. apply ffin_spec in FP.
    split; [exact FP|]. set (pw := fval (powf x 0x1.3333333333333p-2%float)) in *. set (r := Rpower X (3 / 10)). set (c := fval 0x1.3333333333333p-2%float) in *. rewrite PW in EP.
    assert (C : Rabs (c - 3 / 10) <= 2 / 10 ^ 17).
    { unfold c. assert (V : fval 0x1.3333333333333p-2%float = 5404319552844595 / 18014398509481984) by (unfold fval; vm_compute; lra). rewrite V. apply Rabs_le. lra. }
    apply Flocq.Core.Raux.Rabs_le_inv in C.
    set (E := (c - 3 / 10) * ln X + c * ln (1 + d)).
    assert (P0 : Rpower (fval x) c = r * exp E).
    { unfold r, Rpower. rewrite <- exp_plus. f_equal. rewrite DX, ln_mult by lra. unfold E. lra. }
    assert (L1 : Rabs (ln (1 + d)) <= 2 * / 1125899906842624).
    { apply Rabs_le. split.
      - assert (I : ln (1 + d) = - ln (/ (1 + d))) by (rewrite ln_Rinv by lra; lra). rewrite I.
        assert (IP : 0 < / (1 + d)) by (apply Rinv_0_lt_compat; lra). pose proof (ln_le_minus _ IP) as L.
        assert (IU : / (1 + d) <= 1 + 2 * / 1125899906842624) by (apply Rmult_le_reg_r with (1 + d); [lra|]; rewrite Rinv_l by lra; nra). lra.
      - pose proof (ln_le_minus (1 + d) ltac:(lra)). lra. }
    assert (EE : Rabs E <= 14 / 10 ^ 16).
    { unfold E. eapply Rle_trans; [apply Rabs_triang|]. rewrite !Rabs_mult.
      assert (A1 : Rabs (c - 3 / 10) * Rabs (ln X) <= 2 / 10 ^ 17 * (371 / 10)) by (apply Rmult_le_compat; try apply Rabs_pos; apply Rabs_le; lra).
      assert (A2 : Rabs c * Rabs (ln (1 + d)) <= 31 / 100 * (2 * / 1125899906842624)) by (apply Rmult_le_compat; try apply Rabs_pos; [apply Rabs_le; lra|exact L1]). lra. }
    pose proof (exp_near E ltac:(lra)) as XE.
    assert (RP : 0 < r) by apply exp_pos. rewrite P0 in EP. pose proof (exp_pos E) as PE.
    rewrite (Rabs_pos_eq (r * exp E)) in EP by (left; apply Rmult_lt_0_compat; lra).
    assert (XE' : Rabs (exp E - 1) <= 28 / 10 ^ 16) by lra. apply Flocq.Core.Raux.Rabs_le_inv in XE'.
    replace (pw - r) with ((pw - r * exp E) + r * (exp E - 1)) by ring. eapply Rle_trans; [apply Rabs_triang|]. rewrite Rabs_mult, (Rabs_pos_eq r) by lra.
    assert (B1 : r * Rabs (exp E - 1) <= r * (28 / 10 ^ 16)) by (apply Rmult_le_compat_l; lra).
    assert (B2 : / 1125899906842624 * (r * exp E) <= / 1125899906842624 * (r * (1 + 28 / 10 ^ 16))) by (apply Rmult_le_compat_l; [lra|]; apply Rmult_le_compat_l; lra).
    lra.
  Qed.
  Lemma lit_03 : (lit 3 1 : float) = 0x1.3333333333333p-2%float.
  Proof. vm_compute. reflexivity. Qed.
  Lemma random_spec w u : amount w -> drawn u ->
    let v := random_value lnf powf w u in let r := fval w * Rpower (- ln (fval u)) (3 / 10) in
    ffin v /\ 0 <= fval v /\ Rabs (fval v - r) <= 1 / 10 ^ 14 * r + 1 / 10 ^ 300 /\ fval v <= 3 * fval w + 1 / 10 ^ 300.
  Proof.
    intros HW HU v r. destruct (amount_spec w HW) as [FW RW]. destruct (factor_bound u HU) as [R0 R1]. pose proof (factor_error u HU) as A.
    set (R := Rpower (- ln (fval u)) (3 / 10)) in *. pose proof u64_pos as U. pose proof eta64_pos as E0. pose proof eta64_small' as E1. pose proof cap_large as CL.
    set (W := fval w) in *. set (pf := (powf (- lnf u) 0x1.3333333333333p-2)%float) in *.
    assert (EV : v = (w * pf)%float) by (unfold v, random_value; rewrite lit_03; reflexivity). clearbody v. subst v.
    assert (WR : 0 <= W * R <= 3 * 1048576) by (split; [apply Rmult_le_pos; lra|nra]).
    assert (CK : (W + 0) * (R + 4 / 10 ^ 15 * R) <= 100 * cap).
    { replace ((W + 0) * (R + 4 / 10 ^ 15 * R)) with ((1 + 4 / 10 ^ 15) * (W * R)) by ring. set (q := W * R) in *. assert (4 / 10 ^ 15 * q <= 1 * q) by (apply Rmult_le_compat_r; lra). lra. }
    assert (AW : Rabs W <= W) by (rewrite Rabs_pos_eq; [apply Rle_refl|apply RW]). assert (AR : Rabs R <= R) by (rewrite Rabs_pos_eq; [apply Rle_refl|apply Rlt_le, R0]).
    pose proof (app_mul w pf W R 0 (4 / 10 ^ 15 * R) W R (app_exact w FW) A AW AR CK) as M.
    assert (UB : u64 * ((W + 0) * (R + 4 / 10 ^ 15 * R)) <= 1 / 10 ^ 15 * (2 * (W * R))) by (apply Rmult_le_compat; lra).
    apply app_weaken with (e' := 1 / 10 ^ 14 * r + 1 / 10 ^ 300) in M; [|unfold r; lra]. destruct M as [F M]. split; [exact F|].
    assert (PP : 0 <= fval pf).
    { destruct A as [_ A]. apply Flocq.Core.Raux.Rabs_le_inv in A. lra. }
    split; [|split; [exact M|]].
    - assert (V : fval (w * pf)%float = rnd (W * fval pf)).
      { apply fmul_correct; [exact FW|apply A|]. apply rnd_in_range. destruct A as [_ A]. apply Flocq.Core.Raux.Rabs_le_inv in A. fold W. rewrite Rabs_pos_eq by (apply Rmult_le_pos; lra).
        assert (W * fval pf <= 1048576 * 4) by (apply Rmult_le_compat; lra). lra. }
      rewrite V. apply rnd_nonneg, Rmult_le_pos; lra.
    - apply Flocq.Core.Raux.Rabs_le_inv in M. assert (RB : r <= W * (298 / 100)) by (unfold r; fold W; fold R; apply Rmult_le_compat_l; lra). fold W. change (W * R) with r in M. clearbody r. lra.
  Qed.
End Random.

Lemma random_zero_draw lnf powf w u : at_borders lnf powf -> (u =? 0)%float = true ->
  ((0 <? w)%float = true -> random_value lnf powf w u = infinity) /\ ((w =? 0)%float = true -> PrimFloat.is_nan (random_value lnf powf w u) = true).
Proof.
  intros [BL BP] Z. unfold random_value. rewrite lit_03, (BL u Z). change (- neg_infinity)%num with infinity. rewrite BP. change (w * infinity)%num with (w * infinity)%float. split; intro H.
  - apply Prim2B_inj. rewrite mul_equiv. revert H. rewrite ltb_equiv. destruct (Prim2B w) as [s|s| |s m e B]; cbn; try discriminate; destruct s; try discriminate; reflexivity.
  - rewrite is_nan_equiv, mul_equiv. revert H. rewrite eqb_equiv. destruct (Prim2B w) as [s|s| |s m e B]; cbn; try discriminate; destruct s; try discriminate; reflexivity.
Qed.
