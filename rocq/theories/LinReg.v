(** Straight-line regression. util.py:137-157 [linregress] returns slope and intercept of
    scipy.stats.linregress, which minimises the sum of squared deviations. *)
From Coq Require Import List Reals Lra.
From Verif Require Import Py Num SpecBase.
Import ListNotations.
Open Scope R_scope.

(** sum of squared deviations from the line b0 + b1 x *)
Definition sse (b1 b0 : R) (ps : list (R * R)) : R := Rsum (map (fun p => (snd p - (b0 + b1 * fst p)) ^ 2) ps).
Definition finite_pairs (ps : list (R * R)) : list (xr * xr) := map (fun p => (Fin (fst p), Fin (snd p))) ps.
(** a routine that finds the best line whenever it is determined *)
Definition least_squares (lr : list (xr * xr) -> res (xr * xr)) : Prop :=
  forall ps, (exists p q, In p ps /\ In q ps /\ fst p <> fst q) ->
    exists a1 a0, lr (finite_pairs ps) = Ok (Fin a1, Fin a0) /\ forall b1 b0, sse a1 a0 ps <= sse b1 b0 ps.

Lemma Rsum_ge0 {A} (f : A -> R) l : (forall x, In x l -> 0 <= f x) -> 0 <= Rsum (map f l).
Proof.
  induction l as [|x l IH]; intro H; unfold Rsum in *; cbn [map fold_right]; [lra|].
  pose proof (H x (or_introl eq_refl)). assert (0 <= fold_right Rplus 0 (map f l)) by (apply IH; intros; apply H; right; assumption). lra.
Qed.
Lemma Rsum_zero_all {A} (f : A -> R) l : (forall x, In x l -> 0 <= f x) -> Rsum (map f l) <= 0 -> forall x, In x l -> f x = 0.
Proof.
  induction l as [|y l IH]; intros H S x Hx; [destruct Hx|]. unfold Rsum in *. cbn [map fold_right] in S.
  pose proof (H y (or_introl eq_refl)) as Y. assert (T : 0 <= Rsum (map f l)) by (apply Rsum_ge0; intros; apply H; right; assumption). unfold Rsum in T.
  destruct Hx as [->|Hx]; [lra|]. apply IH; [intros; apply H; right; assumption|lra|exact Hx].
Qed.
Lemma sq_ge0 x : 0 <= x ^ 2.
Proof. replace (x ^ 2) with (x * x) by ring. apply Rle_0_sqr. Qed.
(** points on a line: the routine finds that line *)
Theorem line_recovered lr ps c1 c0 : least_squares lr -> (exists p q, In p ps /\ In q ps /\ fst p <> fst q) ->
  (forall p, In p ps -> snd p = c0 + c1 * fst p) -> lr (finite_pairs ps) = Ok (Fin c1, Fin c0).
Proof.
  intros LS D ON. destruct (LS ps D) as (a1 & a0 & E & O). rewrite E. specialize (O c1 c0).
  assert (Z0 : sse c1 c0 ps = 0).
  { unfold sse. assert (ON' : forall p, In p ps -> (snd p - (c0 + c1 * fst p)) ^ 2 = 0) by (intros p Hp; rewrite (ON p Hp); ring).
    revert ON'. clear. induction ps as [|p ps IH]; intro H; [reflexivity|]. unfold Rsum in *. cbn [map fold_right]. rewrite IH by (intros; apply H; right; assumption). rewrite (H p (or_introl eq_refl)). ring. }
  rewrite Z0 in O. pose proof (Rsum_zero_all _ ps (fun p _ => sq_ge0 (snd p - (a0 + a1 * fst p))) O) as ZR. cbv beta in ZR.
  assert (L : forall p, In p ps -> (c0 - a0) + (c1 - a1) * fst p = 0).
  { intros p Hp. specialize (ZR p Hp). rewrite (ON p Hp) in ZR. assert (R0 : c0 + c1 * fst p - (a0 + a1 * fst p) = 0).
    { apply Rsqr_0_uniq. unfold Rsqr. replace (_ * _) with ((c0 + c1 * fst p - (a0 + a1 * fst p)) ^ 2) by ring. exact ZR. }
    lra. }
  destruct D as (p & q & Hp & Hq & NE). pose proof (L p Hp) as L1. pose proof (L q Hq) as L2.
  assert (S : (c1 - a1) * (fst p - fst q) = 0) by lra. apply Rmult_integral in S as [S|S]; [|exfalso; apply NE; lra].
  assert (c1 = a1) by lra. subst a1. assert (c0 = a0) by lra. subst a0. reflexivity.
Qed.

(** the textbook formulas (numpy's covariance in scipy.stats.linregress) are such a routine *)
Definition mean_of (f : R * R -> R) (ps : list (R * R)) : R := Rsum (map f ps) / INR (length ps).
Definition slope_of (ps : list (R * R)) : R :=
  Rsum (map (fun p => (fst p - mean_of fst ps) * (snd p - mean_of snd ps)) ps) / Rsum (map (fun p => (fst p - mean_of fst ps) ^ 2) ps).
Definition ols (l : list (xr * xr)) : res (xr * xr) :=
  let ps := flat_map (fun p => match p with (Fin x, Fin y) => [(x, y)] | _ => [] end) l in
  if Req_EM_T (Rsum (map (fun p => (fst p - mean_of fst ps) ^ 2) ps)) 0 then Err ValueError
  else Ok (Fin (slope_of ps), Fin (mean_of snd ps - slope_of ps * mean_of fst ps)).
Lemma Rsum_plus {A} (f g : A -> R) l : Rsum (map (fun x => f x + g x) l) = Rsum (map f l) + Rsum (map g l).
Proof. induction l as [|x l IH]; unfold Rsum in *; cbn [map fold_right]; [lra|]. rewrite IH. lra. Qed.
Lemma Rsum_times {A} c (f : A -> R) l : Rsum (map (fun x => c * f x) l) = c * Rsum (map f l).
Proof. induction l as [|x l IH]; unfold Rsum in *; cbn [map fold_right]; [lra|]. rewrite IH. lra. Qed.
Lemma Rsum_const {A} c (l : list A) : Rsum (map (fun _ => c) l) = INR (length l) * c.
Proof. induction l as [|x l IH]; [unfold Rsum; cbn; lra|]. cbn [length]. rewrite S_INR. unfold Rsum in *. cbn [map fold_right]. rewrite IH. lra. Qed.
Lemma Rsum_ext {A} (f g : A -> R) l : (forall x, f x = g x) -> Rsum (map f l) = Rsum (map g l).
Proof. intro H. f_equal. apply map_ext, H. Qed.
Theorem ols_least_squares : least_squares ols.
Proof.
  intros ps D. set (mx := mean_of fst ps). set (my := mean_of snd ps). set (sxx := Rsum (map (fun p => (fst p - mx) ^ 2) ps)).
  assert (N0 : 0 < INR (length ps)).
  { destruct D as (p & _ & Hp & _). destruct ps; [destruct Hp|]. cbn [length]. rewrite S_INR. pose proof (pos_INR (length ps)). lra. }
  assert (SX : 0 < sxx).
  { destruct (Rle_or_lt sxx 0) as [B|B]; [exfalso|exact B]. pose proof (Rsum_zero_all _ ps (fun p _ => sq_ge0 (fst p - mx)) B) as ZR. cbv beta in ZR.
    destruct D as (p & q & Hp & Hq & NE). apply NE. assert (E : forall r, In r ps -> fst r = mx).
    { intros r Hr. assert (fst r - mx = 0) by (apply Rsqr_0_uniq; unfold Rsqr; replace (_ * _) with ((fst r - mx) ^ 2) by ring; exact (ZR r Hr)). lra. }
    rewrite (E p Hp), (E q Hq). reflexivity. }
  assert (FP : flat_map (fun p => match p with (Fin x, Fin y) => [(x, y)] | _ => [] end) (finite_pairs ps) = ps).
  { unfold finite_pairs. clear. induction ps as [|[x y] ps IH]; [reflexivity|]. cbn. f_equal. exact IH. }
  exists (slope_of ps), (my - slope_of ps * mx). split.
  { unfold ols. rewrite FP. fold mx. fold sxx. destruct (Req_EM_T sxx 0); [exfalso; lra|]. reflexivity. }
  set (sxy := Rsum (map (fun p => (fst p - mx) * (snd p - my)) ps)). assert (ES : slope_of ps = sxy / sxx) by reflexivity. set (a1 := slope_of ps) in *. set (a0 := my - a1 * mx).
  assert (SXm : Rsum (map (fun p => fst p - mx) ps) = 0).
  { rewrite (Rsum_ext _ (fun p => fst p + (- mx))) by (intro; ring). rewrite Rsum_plus, Rsum_const. unfold mx, mean_of. field. lra. }
  assert (SYm : Rsum (map (fun p => snd p - my) ps) = 0).
  { rewrite (Rsum_ext _ (fun p => snd p + (- my))) by (intro; ring). rewrite Rsum_plus, Rsum_const. unfold my, mean_of. field. lra. }
  intros b1 b0. unfold sse.
  (* deviations from the best line are orthogonal to every difference of lines *)
  set (k := b0 + b1 * mx - my). set (u := a1 - b1).
  rewrite (Rsum_ext (fun p => (snd p - (b0 + b1 * fst p)) ^ 2) (fun p => (snd p - (a0 + a1 * fst p)) ^ 2 + ((2 * u) * ((fst p - mx) * (snd p - my)) + ((- (2 * u) * a1) * (fst p - mx) ^ 2 + ((- 2 * k) * (snd p - my) + ((2 * k * a1) * (fst p - mx) + (u * (fst p - mx) - k) ^ 2)))))).
  2: { intros [x y]. cbn [fst snd]. unfold a0, u, k. ring. }
  rewrite !Rsum_plus, !Rsum_times. fold sxy sxx. rewrite SXm, SYm.
  assert (O : 2 * u * sxy + (- (2 * u) * a1) * sxx = 0) by (rewrite ES; field; lra).
  pose proof (Rsum_ge0 (fun p => (u * (fst p - mx) - k) ^ 2) ps (fun p _ => sq_ge0 _)). lra.
Qed.
Example ols_met : ols (finite_pairs [(1, 5); (2, 7); (4, 11)]) = Ok (Fin 2, Fin 3).
Proof.
  apply line_recovered; [exact ols_least_squares| |].
  - exists (1, 5), (2, 7). cbn. repeat split; auto. lra.
  - intros p [<-|[<-|[<-|[]]]]; cbn; lra.
Qed.
Print Assumptions ols_least_squares.
