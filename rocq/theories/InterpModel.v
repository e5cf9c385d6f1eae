(** Model of Station.interpolate (melodist/station.py) for method='linear'. *)
From Coq Require Import ZArith List Bool.
From Verif Require Import Py Num Cal Series UtilModel UtilModel2.
Import ListNotations.
Open Scope Z_scope.

Section Generic.
  Context {T : Type} {N : Num T}.

  (** first valid value of a list and its distance, counted from k *)
  Fixpoint scan (k : Z) (l : list T) : option (Z * T) :=
    match l with
    | [] => None
    | x :: r => if n_isnan x then scan (k + 1) r else Some (k, x)
    end.

  (** pandas [Series.interpolate(method='linear', limit, limit_direction)] (pandas/core/missing.py, not part of /repo):
      np.interp over positions, constant before the first and after the last valid value, then NaN again where
      [preserved] says so *)
  Inductive direction : Type := Forward | Backward | Both.
  (** no valid value within [limit] positions; without a limit never *)
  Definition beyond (limit : option Z) (o : option (Z * T)) : bool :=
    match limit with
    | None => false
    | Some m => match o with None => true | Some (k, _) => m <? k end
    end.
  Definition absent (o : option (Z * T)) : bool := match o with None => true | Some _ => false end.
  Definition preserved (dir : direction) (limit : option Z) (before after : option (Z * T)) : bool :=
    match dir with
    | Forward => absent before || beyond limit before
    | Backward => absent after || beyond limit after
    | Both => beyond limit before && beyond limit after
    end.
  Definition interp_at (dir : direction) (limit : option Z) (l : list T) (i : nat) : T :=
    let x := nth i l n_nan in
    if n_isnan x then
      let before := scan 1 (rev (firstn i l)) in
      let after := scan 1 (skipn (S i) l) in
      if preserved dir limit before after then n_nan else
      match before, after with
      | Some (p, a), Some (q, b) => ((b - a) / n_ofZ (p + q) * n_ofZ p + a)%num
      | Some (_, a), None => a
      | None, Some (_, b) => b
      | None, None => n_nan
      end
    else x.
  Definition interpolate_linear (dir : direction) (limit : option Z) (l : list T) : list T :=
    map (interp_at dir limit l) (seq 0 (length l)).

  (** station.py:403-437 [Station.interpolate]; other pandas methods (scipy) are not modelled. pandas refuses a
      limit below 1. *)
  Definition station_interpolate (e : env) (dir : direction) (limit : option Z) (days : list Z) (cols : list (Z * list T)) : res (series T) :=
    let* data := prepare_interpolation_data e days cols in
    if match limit with Some m => m <? 1 | None => false end then Err ValueError
    else Ok (combine (index data) (interpolate_linear dir limit (values data))).
End Generic.
