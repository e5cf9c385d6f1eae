(** The branch 'mean_course_mean' of the temperature disaggregation for any kind of number, with the mean of a
    month's course left open. *)
From Coq Require Import String ZArith List Bool.
From Verif Require Import Py Num Cal Series UtilModel UtilModel2 Frame CourseModel.
Import ListNotations.
Open Scope Z_scope.

Section Generic.
  Context {T : Type} {N : Num T}.

  (** temperature.py:254-256 [mean_course - mean_course.mean()] as [TempModel.zero_mean]; [mean] stands for pandas'
      [mean()] *)
  Definition zero_mean_with (mean : list T -> T) (c : course T) : course T :=
    map (fun p => (fst p, let m := mean (map snd (snd p)) in map (fun q => (fst q, (snd q - m)%num)) (snd p))) c.
  (** temperature.py:59, 250-262: [disaggregate_temperature(method='mean_course_mean')]; at [xr] with
      [mean := nanmean] the same as that branch of [TempModel.disaggregate_temperature] (theorem
      [C114_same_formula]) *)
  Definition temp_course_mean (mean : list T -> T) (e : env) (data_daily : dframe T) (c : course T) : res (series T) :=
    let idx := f_index data_daily in
    let* hours := hourly_index e idx in
    if has_dup idx || negb (is_increasing idx) then Err ValueError else
    let* tmax := fcol "tmax" data_daily in
    let* tmin := fcol "tmin" data_daily in
    let* mc := mapM (course_value (zero_mean_with mean c)) hours in
    let* temp := fcol "temp" data_daily in
    let tmin := ffill_limit 23 tmin hours in
    let tmax := ffill_limit 23 tmax hours in
    let temp := ffill_limit 23 temp hours in
    Ok (map (fun p => match p with (mcv, (t, lo), (_, hi), (_, m)) => (t, (m + (hi - lo) * mcv)%num) end)
            (combine (combine (combine mc tmin) tmax) temp)).
End Generic.
