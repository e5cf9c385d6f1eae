(** The master-station method with the other reading of its last statement: a Series assigned to the hours
    of a day by position instead of by label. *)
From Coq Require Import ZArith List Bool.
From Verif Require Import Py Num Cal Series UtilModel.
Import ListNotations.
Open Scope Z_scope.

Section Generic.
  Context {T : Type} {N : Num T}.

  (** precipitation.py:411 [precip_hourly[index] = precip_h_rel] in pandas 1.4 and 1.5: the string is turned into
      the slice of the rows of that day and the values are written into it as numpy does, i.e. in order when
      the numbers agree, a single value into every row, else ValueError. (Older versions align by label, see
      [PrecipModel.master_day]; newer ones have no [iteritems].) *)
  Fixpoint fill_rows (d : Z) (vals : list T) (out : series T) : series T :=
    match out with
    | [] => []
    | (t, v) :: r =>
        if date_of t =? d
        then match vals with
             | x :: vals' => (t, x) :: fill_rows d vals' r
             | [] => (t, v) :: fill_rows d [] r
             end
        else (t, v) :: fill_rows d vals r
    end.
  Definition rows_of_day (d : Z) (out : series T) : nat := length (filter (fun p => date_of (fst p) =? d) out).
  Definition store_by_position (d : Z) (vals : list T) (out : series T) : res (series T) :=
    if Nat.eqb (length vals) (rows_of_day d out) then Ok (fill_rows d vals out)
    else match vals with
         | [x] => Ok (fill_rows d (repeat x (rows_of_day d out)) out)
         | _ => Err ValueError
         end.

  (** precipitation.py:392-411, body of the loop; [tot] stands for [precip_h.sum()]; everything but the last
      statement as in [MasterModel.master_day_with] *)
  Definition master_day_pos (tot : list T -> T) (master : series T) (zerodiv_uniform : bool) (out : series T)
             (t : Z) (precip : T) : res (series T) :=
    let d := date_of t in
    let off := match master with
               | [] => false
               | (t0, _) :: _ => (d <? date_of t0) || (date_of (fst (last master (t0, n_nan))) <? d)
               end in
    if off then Err KeyError
    else
      let ph := filter (fun p => date_of (fst p) =? d) master in          (* 394-395 *)
      let sm := tot (values ph) in
      let set x := map (fun p => (fst p, if date_of (fst p) =? d then x else snd p)) out in
      if negb (sm =? n0)%num && negb (sm =? (if n_isnan sm then n1 else n0))%num then (* 399 *)
        store_by_position d (map (fun v => (v / sm * precip)%num) (values ph)) out (* 400, 411 *)
      else if zerodiv_uniform
        then Ok (set (n1 / n_ofZ 24 * precip)%num)                         (* 404-405 *)
        else Ok (set n0).                                                  (* 407-408 *)

  Fixpoint master_days_pos (tot : list T -> T) (master : series T) (zerodiv_uniform : bool) (days : series T)
           (out : series T) : res (series T) :=
    match days with
    | [] => Ok out
    | (t, p) :: r =>
        let* out' := master_day_pos tot master zerodiv_uniform out t p in
        master_days_pos tot master zerodiv_uniform r out'
    end.

  (** precipitation.py:375-413 [precip_master_station] *)
  Definition precip_master_station_pos (tot : list T -> T) (e : env) (s master : series T) (zerodiv_uniform : bool)
    : res (series T) :=
    let* idx := hourly_index e (index s) in
    let out := map (fun t => (t, n_nan)) idx in                            (* 389 *)
    if has_iteritems e then master_days_pos tot master zerodiv_uniform s out (* 392 *)
    else Err AttributeError.
End Generic.
