(** Proofs about the test mode of the cascade. *)
From Coq Require Import ZArith List Bool Lia Reals Lra.
From Verif Require Import Py Num Cal Series UtilModel SpecBase TimeProofs CascadeModel PrecipModel
  SpecCascade CascadeProofs CascadeSteps CascadeExact CascadeMore CascadeFive SpecCoarse
  CascadeTestModel CascadeCoarse.
Import ListNotations.
Open Scope Z_scope.

Definition returns_arrays (hourly : bool) (lvl : nat) : bool :=
  hourly || Nat.eqb lvl 9 || Nat.eqb lvl 10 || Nat.eqb lvl 11.

Section Generic.
  Context {T : Type} {N : Num T}.

  Lemma test_full e (s : series T) arg hourly lvl shft draws pos :
    match disagg_prec_cascade_full e s arg hourly lvl shft draws pos with
    | Err x => disagg_prec_cascade_test e s arg hourly lvl shft draws pos = Err x
    | Ok None => disagg_prec_cascade_test e s arg hourly lvl shft draws pos = Ok None
    | Ok (Some r) =>
        if returns_arrays hourly lvl
        then exists t, disagg_prec_cascade_test e s arg hourly lvl shft draws pos = Ok (Some t) /\
               tr_levels t = cr_levels r /\ tr_out t = cr_out r
        else disagg_prec_cascade_test e s arg hourly lvl shft draws pos = Err UnboundLocalError
    end.
  Proof.
    unfold disagg_prec_cascade_full, disagg_prec_cascade_test, returns_arrays. cbv zeta.
    destruct (Nat.ltb _ _); [reflexivity|].
    destruct (check_options _ _) as [[]|]; cbn [bind]; [|reflexivity].
    destruct (levels_from _ _ _ _ _ _ _ _ _) as [[[|v rest]|]|]; cbn [bind]; try reflexivity.
    destruct hourly; cbn [orb].
    - destruct (hourly_index e _); cbn [bind]; [|reflexivity].
      destruct (mk_series _ _); cbn [bind]; [|reflexivity].
      eexists. split; [reflexivity|]. split; reflexivity.
    - destruct (sub_level_index e _ _); cbn [bind]; [|reflexivity].
      destruct (mk_series _ _); cbn [bind]; [|reflexivity].
      destruct (_ || _ || _); [|reflexivity].
      eexists. split; [reflexivity|]. split; reflexivity.
  Qed.

  (** everything a returned tuple contains *)
  Lemma test_inv e d0 amounts arg hourly lvl shft draws pos t :
    disagg_prec_cascade_test (T := T) e (daily d0 amounts) arg hourly lvl shft draws pos = Ok (Some t) ->
    (2 <= length amounts)%nat /\ returns_arrays hourly lvl = true /\
    length (tr_levels t) = n_levels hourly lvl /\ chain (map fill0 amounts) (tr_levels t) /\
    let boxes := last (tr_levels t) [] in
    refines (n_levels hourly lvl) (map fill0 amounts) boxes /\
    (if hourly then tr_quarters t = Some (to_quarters boxes) /\ tr_boxes t = None
     else tr_quarters t = None /\
          tr_boxes t = Some (combine (grid (d0 * us_day) (sub_step lvl) (2 ^ lvl * length amounts)) boxes)).
  Proof.
    intro H. unfold disagg_prec_cascade_test in H. rewrite daily_length in H.
    destruct (Nat.ltb_spec (length amounts) 2) as [|Hl]; [discriminate|]. split; [exact Hl|].
    apply bind_Ok in H. destruct H as (u & _ & H).
    apply bind_Ok in H. destruct H as (acc & E & H).
    destruct acc as [[|v rest]|]; try discriminate.
    rewrite zero_missing_values in E.
    destruct (levels_from_chain _ _ _ _ _ _ _ _ _ _ (st0_ok pos) E) as (arrays & Ea & La & Ch).
    rewrite app_nil_r in Ea.
    assert (Er : rev (v :: rest) = arrays) by (rewrite Ea; apply rev_involutive).
    assert (Elast : last arrays [] = v).
    { rewrite <- Er. cbn [rev]. apply last_last. }
    assert (Rf : refines (n_levels hourly lvl) (map fill0 amounts) v).
    { destruct (levels_from_refines _ _ _ _ _ _ _ _ _ _ (st0_ok pos) E) as [[_ C]|(o & r0 & C & R)];
        [discriminate|]. injection C as <- _. exact R. }
    cbn [rev] in Er. destruct hourly.
    - apply bind_Ok in H. destruct H as (idx & _ & H).
      apply bind_Ok in H. destruct H as (out & _ & H). injection H as <-. cbn [tr_levels tr_quarters tr_boxes].
      rewrite Er, Elast. repeat split; assumption.
    - apply bind_Ok in H. destruct H as (idx & I & H).
      apply bind_Ok in H. destruct H as (sn & M & H).
      destruct (_ || _ || _) eqn:B in H; [|discriminate]. injection H as <-.
      cbn [tr_levels tr_quarters tr_boxes]. rewrite Er, Elast.
      split; [exact B|]. split; [exact La|]. split; [exact Ch|]. cbv zeta. split; [exact Rf|]. split; [reflexivity|].
      assert (HL : (lvl <= 11)%nat).
      { apply orb_true_iff in B. rewrite orb_true_iff, !Nat.eqb_eq in B. lia. }
      rewrite zero_missing_index in I. unfold index in I. rewrite daily_fst in I.
      destruct (length amounts) as [|n] eqn:En; [lia|].
      rewrite sub_level_index_daily in I by exact HL.
      match type of I with Ok ?g = Ok _ => assert (idx = g) as -> by congruence end.
      unfold mk_series in M. destruct (Nat.eqb _ _); [|discriminate].
      match type of M with Ok ?g = Ok _ => assert (sn = g) as -> by congruence end.
      reflexivity.
  Qed.
End Generic.

(** the arrays over the reals *)
Lemma test_levels_xr e d0 amounts arg hourly lvl shft draws pos t :
  Forall amount_ok amounts ->
  disagg_prec_cascade_test e (daily d0 amounts) arg hourly lvl shft draws pos = Ok (Some t) ->
  exists ls, tr_levels t = map (map Fin) ls /\ length ls = n_levels hourly lvl /\
    halving (map depth amounts) ls /\ Forall (Forall (fun b => 0 <= b)%R) ls.
Proof.
  intros HA H. destruct (test_inv _ _ _ _ _ _ _ _ _ _ H) as (_ & _ & Ln & Ch & _).
  destruct (fill0_list _ HA) as [EF FF]. rewrite EF in Ch.
  destruct (chain_xr _ _ FF Ch) as (ls & El & Hh & Fl).
  exists ls. split; [exact El|]. split; [rewrite <- Ln, El, map_length; reflexivity|]. split; [|exact Fl].
  assert (Ed : map depth amounts = map amountR amounts) by (apply map_ext; intros []; reflexivity).
  rewrite Ed. exact Hh.
Qed.

Lemma last_map {A B} (f : A -> B) l d d' : l <> [] -> last (map f l) d = f (last l d').
Proof.
  induction l as [|x l IH]; intro H; [congruence|]. destruct l as [|y l]; [reflexivity|].
  change (last (f y :: map f l) d = f (last (y :: l) d')). apply IH. discriminate.
Qed.
Lemma tri_nth bs : forall j, (j < 3 * length bs)%nat -> nth j (flat_map tri bs) 0%R = (nth (j / 3) bs 0 / 3)%R.
Proof.
  induction bs as [|b bs IH]; intros j Hj; cbn [length] in Hj; [lia|].
  cbn [flat_map tri app]. do 3 (destruct j as [|j]; [reflexivity|]).
  cbn [nth]. rewrite IH by lia.
  replace (S (S (S j))) with (j + 1 * 3)%nat by lia. rewrite Nat.div_add by lia.
  rewrite Nat.add_1_r. reflexivity.
Qed.
Lemma nth_map_seq {A} (f : nat -> A) n j d : (j < n)%nat -> nth j (map f (seq 0 n)) d = f j.
Proof.
  intro H. rewrite (nth_indep _ d (f 0%nat)) by (rewrite map_length, seq_length; exact H).
  rewrite map_nth, seq_nth by exact H. reflexivity.
Qed.
