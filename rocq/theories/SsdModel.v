(** Radiation from sunshine duration for any kind of number, with pandas' mean left open. *)
From Coq Require Import String ZArith List Bool.
From Verif Require Import Py Num Cal Series UtilModel UtilModel2 Frame CourseModel ScaleModel RadAnyModel.
Import ListNotations.
Open Scope Z_scope.

Section Generic.
  Context {T : Type} {N : Num T}.

  (** radiation.py:79-88: the daily values of 'pot_rad_via_ssd'; [dl] is the column sun_times.daylength *)
  Definition ssd_daily (ps : model_params T) (idx : list Z) (ssd dl pot_daily : series T) : res (series T) :=
    let lit_days := filter (fun p => (snd p >? n0)%num) dl in
    let* rows := mapM (fun p => let* s := value_at ssd (fst p) in
                                let* q := value_at pot_daily (fst p) in
                                Ok (fst p, (s, snd p, q))) lit_days in
    let* vals := angstroem_any ps rows in
    Ok (map (fun t => (t, match lookup t vals with Some v => v | None => n0 end)) idx).
  (** radiation.py:61, 73-88, 94-101: [disaggregate_radiation(method='pot_rad_via_ssd')]; at [xr] with [mean := nanmean]
      the same as that branch of [RadModel.disaggregate_radiation] *)
  Definition rad_ssd_with (mean : list T -> T) (e : env) (data_daily : dframe T) (dl pot : series T) (ps : model_params T) : res (series T) :=
    let* hours := hourly_index e (f_index data_daily) in
    let pot_daily := resample us_day mean pot in
    let* ssd := fcol "ssd" data_daily in
    let* globalrad := ssd_daily ps (f_index data_daily) ssd dl pot_daily in
    if has_dup (index globalrad) || negb (is_increasing (index globalrad)) then Err ValueError else
    Ok (scale_to pot pot_daily globalrad).
End Generic.
