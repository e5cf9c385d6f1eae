(** Radiation from the temperature range for any kind of number, with the means and the transcendental functions left open. *)
From Coq Require Import String ZArith List Bool.
From Verif Require Import Py Num Cal Series UtilModel UtilModel2 Frame CourseModel ScaleModel RadAnyModel.
Import ListNotations.
Open Scope Z_scope.

Section Generic.
  Context {T : Type} {N : Num T}.

  (** radiation.py:61, 73, 89-101: [disaggregate_radiation(method='pot_rad_via_bc')]; [mean] is the mean of a day,
      [mmean] the mean of a month (both pandas' [mean()]); at [xr] with both [nanmean] the same as that branch of
      [RadModel.disaggregate_radiation] *)
  Definition rad_bc_with (mean mmean : list T -> T) (expf : T -> T) (powf : T -> T -> T) (e : env) (data_daily : dframe T)
             (pot : series T) (ps : model_params T) : res (series T) :=
    let* hours := hourly_index e (f_index data_daily) in
    let pot_daily := resample us_day mean pot in
    let* tmin := fcol "tmin" data_daily in
    let* tmax := fcol "tmax" data_daily in
    let* globalrad := bristow_any expf powf mmean ps tmin tmax pot_daily in
    if has_dup (index globalrad) || negb (is_increasing (index globalrad)) then Err ValueError else
    Ok (scale_to pot pot_daily globalrad).
End Generic.
