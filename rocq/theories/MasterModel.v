(** The master-station method with the summation of the master's hours left open. *)
From Coq Require Import ZArith List Bool.
From Verif Require Import Py Num Cal Series UtilModel PrecipModel.
Import ListNotations.
Open Scope Z_scope.

Section Generic.
  Context {T : Type} {N : Num T}.

  (** precipitation.py:392-411 as [PrecipModel.master_day], but [tot] stands for
      [precip_h.sum()]: the order in which pandas adds doubles is not fixed here.
      [PrecipModel.master_day] is the case [tot := nansum]. *)
  Definition master_day_with (tot : list T -> T) (master : series T) (zerodiv_uniform : bool) (out : series T)
             (t : Z) (precip : T) : res (series T) :=
    let d := date_of t in
    let off := match master with
               | [] => false
               | (t0, _) :: _ => (d <? date_of t0) || (date_of (fst (last master (t0, n_nan))) <? d)
               end in
    if off then Err KeyError
    else
      let ph := filter (fun p => date_of (fst p) =? d) master in          (* 394-395 *)
      let sm := tot (values ph) in
      let set f := map (fun p => (fst p, if date_of (fst p) =? d then f (fst p) else snd p)) out in
      if negb (sm =? n0)%num && negb (sm =? (if n_isnan sm then n1 else n0))%num then (* 399 *)
        let rel := map (fun p => (fst p, (snd p / sm * precip)%num)) ph in (* 400 *)
        if has_dup (index rel) then Err ValueError
        else Ok (set (fun u => match lookup u rel with Some v => v | None => n_nan end))
      else if zerodiv_uniform
        then Ok (set (fun _ => (n1 / n_ofZ 24 * precip)%num))              (* 404-405 *)
        else Ok (set (fun _ => n0)).                                       (* 407-408 *)

  Fixpoint master_days_with (tot : list T -> T) (master : series T) (zerodiv_uniform : bool) (days : series T)
           (out : series T) : res (series T) :=
    match days with
    | [] => Ok out
    | (t, p) :: r =>
        let* out' := master_day_with tot master zerodiv_uniform out t p in
        master_days_with tot master zerodiv_uniform r out'
    end.

  (** precipitation.py:375-413 [precip_master_station] *)
  Definition precip_master_station_with (tot : list T -> T) (e : env) (s master : series T) (zerodiv_uniform : bool)
    : res (series T) :=
    let* idx := hourly_index e (index s) in
    let out := map (fun t => (t, n_nan)) idx in                            (* 389 *)
    if has_iteritems e then master_days_with tot master zerodiv_uniform s out (* 392 *)
    else Err AttributeError.
End Generic.
