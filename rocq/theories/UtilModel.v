(** Model of melodist/util/util.py, part 1: index construction and equal distribution. *)
From Coq Require Import ZArith List Bool Lia.
From Verif Require Import Py Num Cal Series.
Import ListNotations.
Open Scope Z_scope.

(** util.py:26-43 [hourly_index(daily_index, fill_gaps)].
    An empty index gives NaT bounds, for which [pd.date_range] raises ValueError. *)
Definition hourly_index_gen (e : env) (fill_gaps : bool) (daily : list Z) : res (list Z) :=
  match idx_min daily, idx_max daily with
  | Some a, Some b =>
      (* util.py:27 *)
      let idx := date_range a (replace_hour b 23) us_hour in
      (* util.py:30 *)
      if negb fill_gaps && Nat.ltb (length daily * 24) (length idx) then
        (* util.py:31-32: df.index.to_datetime() *)
        if has_index_to_datetime e then
          (* util.py:33-41: keep hours whose date is a listed date; pd.datetime(y,m,d,h)
             rebuilds the stamp from date and hour *)
          let dates := map date_of daily in
          Ok (map (fun t => midnight (date_of t) + hour_of t * us_hour)
                  (filter (fun t => mem (date_of t) dates) idx))
        else Err AttributeError
      else Ok idx
  | _, _ => Err ValueError
  end.

Definition hourly_index (e : env) (daily : list Z) : res (list Z) :=
  hourly_index_gen e false daily.

Section Generic.
  Context {T : Type} {N : Num T}.

  (** util.py:46-67 [distribute_equally(daily_data, divide)] *)
  Definition distribute_equally (e : env) (s : series T) (divide : bool) : res (series T) :=
    (* util.py:58 *)
    let* idx := hourly_index e (index s) in
    (* util.py:59 *)
    let* h := reindex s idx in
    (* util.py:60-62: groupby(index.day).transform(ffill(limit=23)) *)
    let h := transform dom_of (ffill 23) h in
    (* util.py:64-65 *)
    if divide then Ok (map (fun p => (fst p, (snd p / n_ofZ 24)%num)) h) else Ok h.
End Generic.
