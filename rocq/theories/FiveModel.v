(** The cascade with hourly=False, the summation of pandas' resampling left open. *)
From Coq Require Import ZArith List Bool Floats.
From Verif Require Import Py Num Cal Series UtilModel CascadeModel PrecipModel.
Import ListNotations.
Open Scope Z_scope.

Section Generic.
  Context {T : Type} {N : Num T}.

  (** precipitation.py:93-319 for hourly=False, as [PrecipModel.disagg_prec_cascade_full], but [tot] stands
      for the [sum()] of precipitation.py:311; [tot := nansum] is that definition. *)
  Definition disagg_prec_cascade_with (tot : list T -> T) (e : env) (s : series T) (arg : casc_arg T)
             (lvl : nat) (shft : Z) (draws : nat -> T) (pos : nat) : res (option (series T)) :=
    if Nat.ltb (length s) 2 then Err ValueError
    else
      let miss := missing_days s in
      let s0 := zero_missing s in
      let si := n_levels false lvl in
      let* _ := check_options arg si in
      let* r := levels_from arg draws false lvl si 1 (values s0) (st0 pos) [] in
      match r with
      | None => Ok None
      | Some [] => Err UnboundLocalError
      | Some (vdn_out :: _) =>
          let* idx := sub_level_index e (index s0) lvl in
          let* sn := mk_series idx vdn_out in
          let out := restore_missing miss (resample (5 * us_minute) tot sn) in
          Ok (Some (if shft =? 0 then out else shift shft out))
      end.
End Generic.

(** Compensated summation as pandas (since 1.2) adds up the members of a group; not code of /repo.
    Missing values are skipped; state: sum and compensation. *)
Definition kahan_step (st : float * float) (x : float) : float * float :=
  let y := (x - snd st)%float in
  let t := (fst st + y)%float in
  let c := (t - fst st - y)%float in
  (t, if PrimFloat.is_nan c then 0%float else c).
Definition kahan (l : list float) : float := fst (fold_left kahan_step (valid l) (0%float, 0%float)).
