(** Concrete runs of the cascade on IEEE doubles. *)
From Coq Require Import ZArith List Bool Lia Floats Uint63.
From Verif Require Import Py Num Cal Series UtilModel SpecBase CascadeModel PrecipModel SpecCascade.
Import ListNotations.
Open Scope Z_scope.

(** largest value np.random.random() can return: 1 - 2^-53 *)
Definition umax : float := 0x1.fffffffffffffp-1%float.

(** a value np.random.random() can return: j * 2^-53 with 0 <= j < 2^53 *)
Definition is_draw (u : float) : Prop :=
  exists j : Z, 0 <= j < 2 ^ 53 /\ u = (f64_ofZ j * 0x1p-53)%float.

Definition draws_of (l : list float) (d : float) (k : nat) : float := nth k l d.

Definition sample : casc float := fill_with_sample_data casc_init.
(** what aggregate_precipitation fills in for cells without x/x branching *)
Definition sevenths : casc float := {|
  p01 := fun _ _ => 0%float; p10 := fun _ _ => 0%float; pxx := fun _ _ => 1%float;
  wxx := fun _ _ _ => (1 / 7)%float;
  threshold := threshold (casc_init (T := float)); percentile := 50%float |}.

Lemma is_draw_0 : is_draw 0%float.
Proof. exists 0. split; [lia|]. vm_compute. reflexivity. Qed.
Lemma is_draw_max : is_draw umax.
Proof. exists (2 ^ 53 - 1). split; [lia|]. vm_compute. reflexivity. Qed.

Lemma sample_crash :
  disagg_prec_cascade modern (daily 0 [10%float; 10%float]) (COne sample) true 9 0 (fun _ => umax) 0
  = Err UnboundLocalError.
Proof. vm_compute. reflexivity. Qed.

Lemma sevenths_crash :
  disagg_prec_cascade modern (daily 0 [10%float; 10%float]) (COne sevenths) true 9 0 (fun _ => umax) 0
  = Err UnboundLocalError.
Proof. vm_compute. reflexivity. Qed.

Definition stale_draws : nat -> float := draws_of [umax; 0; umax; umax]%float 0%float.
Lemma stale_is_draw k : is_draw (stale_draws k).
Proof.
  do 4 (destruct k as [|k]; [first [exact is_draw_0|exact is_draw_max]|]).
  unfold stale_draws, draws_of. rewrite nth_overflow by (cbn; lia). exact is_draw_0.
Qed.

Lemma stale_levels :
  exists r,
  disagg_prec_cascade_full modern (daily 0 [10%float; 5%float]) (COne sample) true 9 0 stale_draws 0
  = Ok (Some r) /\
  nth 0 (cr_levels r) [] = [center 0 * 10; (1 - center 0) * 10; center 0 * 5; (1 - center 0) * 5]%float.
Proof.
  destruct (disagg_prec_cascade_full modern (daily 0 [10%float; 5%float]) (COne sample) true 9 0
              stale_draws 0) as [[r|]|] eqn:E.
  - exists r. split; [reflexivity|].
    assert (G : match disagg_prec_cascade_full modern (daily 0 [10%float; 5%float]) (COne sample) true 9 0
                  stale_draws 0 with Ok (Some r) => nth 0 (cr_levels r) [] | _ => [] end
                = [center 0 * 10; (1 - center 0) * 10; center 0 * 5; (1 - center 0) * 5]%float)
      by (vm_compute; reflexivity).
    rewrite E in G. exact G.
  - exfalso. assert (G : match disagg_prec_cascade_full modern (daily 0 [10%float; 5%float]) (COne sample) true 9 0
                  stale_draws 0 with Ok None => False | _ => True end) by (vm_compute; exact I).
    rewrite E in G. exact G.
  - exfalso. assert (G : match disagg_prec_cascade_full modern (daily 0 [10%float; 5%float]) (COne sample) true 9 0
                  stale_draws 0 with Err _ => False | _ => True end) by (vm_compute; exact I).
    rewrite E in G. exact G.
Qed.

(** the second day (5 mm, an "ending" box below the threshold) picks no class at all *)
Lemma stale_no_class k : ~ picks (fun k => wxx sample k 0 2) (stale_draws 3) k.
Proof.
  intros (Hk & H & _).
  do 7 (destruct k as [|k]; [vm_compute in H; discriminate|]). lia.
Qed.
