(** precipitation.py:631-702 [build_casc] with the caller's record after the call, also when the call raises. *)
From Coq Require Import ZArith List Bool.
From Verif Require Import Py Num Cal Series CascadeModel AggModel.
Import ListNotations.
Open Scope Z_scope.

Section Generic.
  Context {T : Type} {N : Num T}.

  (** lines 661-700: the season's months are selected (662, may raise), then the missing values of the record are
      overwritten (663), then the statistics are computed (665-700, may raise) *)
  Definition season_record (pct : list T -> res T) (perc : T) (L : nat) (avg : bool) (h : heap T) (obs : series T)
             (months : option (list Z)) : series T * res (heap T * season_stats) :=
    match seasonal_subset obs months with
    | Err x => (obs, Err x)
    | Ok vdn =>
        let obs := fillna0 obs in
        (obs,
         let (h, total) := alloc_casc h casc_init in
         let o := get_obj h total in
         let h := set_obj h total {| o01 := o01 o; o10 := o10 o; oxx := oxx o; owxx := owxx o; othr := othr o; operc := perc |} in
         let* (h, copies, thr, count) := levels_loop pct perc L h total vdn [] [] 0 in
         if count =? 0 then Err ZeroDivisionError else
         let h := heap_mul h total (n1 / n_ofZ count)%num in
         let o := get_obj h total in
         let (h, t) := new_arr h (A1 thr) in
         let h := set_obj h total {| o01 := o01 o; o10 := o10 o; oxx := oxx o; owxx := owxx o; othr := t; operc := operc o |} in
         Ok (h, if avg then SOne total else SList copies))
    end.
  Fixpoint seasons_record (pct : list T -> res T) (perc : T) (L : nat) (avg : bool) (h : heap T) (obs : series T)
           (months : list (option (list Z))) (acc : list season_stats) : series T * res (heap T * list season_stats) :=
    match months with
    | [] => (obs, Ok (h, acc))
    | m :: ms =>
        match season_record pct perc L avg h obs m with
        | (obs, Err x) => (obs, Err x)
        | (obs, Ok (h, st)) => seasons_record pct perc L avg h obs ms (acc ++ [st])
        end
    end.
  Definition build_casc_record (pct : list T -> res T) (perc : T) (hourly : bool) (level : nat) (avg : bool)
             (months : option (list (option (list Z)))) (h : heap T) (obs : series T) : series T * res (heap T * list season_stats) :=
    seasons_record pct perc (if hourly then 5%nat else level) avg h obs
      (match months with None => [None] | Some l => l end) [].
End Generic.
