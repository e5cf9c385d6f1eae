(** Mean courses for any kind of number: the table with the mean left open, and the branch
    'mean_course_min_max' of the temperature disaggregation. *)
From Coq Require Import String ZArith List Bool.
From Verif Require Import Py Num Cal Series UtilModel UtilModel2 Frame.
Import ListNotations.
Open Scope Z_scope.

Section Generic.
  Context {T : Type} {N : Num T}.

  (** util.py:417-430 [calculate_mean_daily_course_by_month] as [UtilModel2.mean_course], but [mean] stands
      for pandas' [mean()]; [mean := nanmean] is that definition. *)
  Definition mean_course_with (mean : list T -> T) (s : series T) (norm : bool) : course T :=
    let months := filter (fun m => existsb (fun t => month_of t =? m) (index s)) (map Z.of_nat (seq 1 12)) in
    let hours := filter (fun h => existsb (fun t => hour_of t =? h) (index s)) (map Z.of_nat (seq 0 24)) in
    map (fun m => (m, let c := map (fun h => (h, mean (map snd (filter (fun p => (month_of (fst p) =? m) && (hour_of (fst p) =? h)) s)))) hours in
                      if norm then normalise c else c)) months.

  (** temperature.py:242 [reindex(..., method='ffill', limit=23)], as [TempModel.reindex_ffill_limit] *)
  Definition ffill_limit (limit : Z) (s : series T) (idx : list Z) : series T :=
    map (fun t => (t,
      match last_le t (map (fun p => (fst p, p)) s) None with
      | Some (u, v) =>
          if Z.of_nat (length (filter (fun x => (u <? x) && (x <=? t)) idx)) <=? limit then v else n_nan
      | None => n_nan
      end)) idx.
  (** temperature.py:245, as [TempModel.course_at] *)
  Definition course_value (c : course T) (t : Z) : res T :=
    match lookup (month_of t) c with
    | Some col => match lookup (hour_of t) col with Some v => Ok v | None => Err KeyError end
    | None => Err KeyError
    end.
  (** temperature.py:59, 241-249: [disaggregate_temperature(method='mean_course_min_max')]; at [xr] the same as
      that branch of [TempModel.disaggregate_temperature] (lemma [course_model_agrees]) *)
  Definition temp_course_min_max (e : env) (data_daily : dframe T) (c : course T) : res (series T) :=
    let idx := f_index data_daily in
    let* hours := hourly_index e idx in
    if has_dup idx || negb (is_increasing idx) then Err ValueError else
    let* normval := mapM (course_value c) hours in
    let* tmin := fcol "tmin" data_daily in
    let* tmax := fcol "tmax" data_daily in
    let tmin := ffill_limit 23 tmin hours in
    let tmax := ffill_limit 23 tmax hours in
    Ok (map (fun p => match p with (nv, (t, lo), (_, hi)) => (t, (nv * (hi - lo) + lo)%num) end)
            (combine (combine normval tmin) tmax)).
End Generic.
