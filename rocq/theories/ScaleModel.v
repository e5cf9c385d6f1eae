(** Scaling of a radiation course to daily means for any kind of number, with pandas' mean left open. *)
From Coq Require Import String ZArith List Bool.
From Verif Require Import Py Num Cal Series UtilModel UtilModel2 Frame CourseModel.
Import ListNotations.
Open Scope Z_scope.

Section Generic.
  Context {T : Type} {N : Num T}.

  (** radiation.py:99 [glob_disagg[glob_disagg < 1e-2] = 0.0], as [RadModel.cut] *)
  Definition cut_small (x : T) : T := if (x <? lit 1 2)%num then n0 else x.
  (** radiation.py:94-98, as [RadModel.scale] *)
  Definition scale_to (pot pot_daily globalrad : series T) : series T :=
    map (fun p => (fst p, cut_small (snd p / lookup_ffill (fst p) pot_daily n_nan * lookup_ffill (fst p) globalrad n_nan)%num)) pot.
  (** radiation.py:61, 73-77, 94-101: [disaggregate_radiation(method='pot_rad')]; at [xr] with [mean := nanmean]
      the same as that branch of [RadModel.disaggregate_radiation] *)
  Definition rad_pot_with (mean : list T -> T) (e : env) (data_daily : dframe T) (pot : series T) : res (series T) :=
    let* hours := hourly_index e (f_index data_daily) in
    let* globalrad := fcol "glob" data_daily in
    if has_dup (index globalrad) || negb (is_increasing (index globalrad)) then Err ValueError else
    Ok (scale_to pot (resample us_day mean pot) globalrad).
  (** radiation.py:61-71: the course of method 'mean_course' *)
  Definition rad_course_with (mean : list T -> T) (e : env) (data_daily : dframe T) (c : course T) : res (series T) :=
    let* hours := hourly_index e (f_index data_daily) in
    let* v := mapM (course_value c) hours in
    rad_pot_with mean e data_daily (combine hours v).
End Generic.
