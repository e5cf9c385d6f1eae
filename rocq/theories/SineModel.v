(** The sine methods of the temperature disaggregation and the cosine method of the wind
    disaggregation for any kind of number: the cosine and pi are parameters. *)
From Coq Require Import String ZArith List Bool.
From Verif Require Import Py Num Cal Series UtilModel UtilModel2 Frame.
Import ListNotations.
Open Scope Z_scope.

Section Generic.
  Context {T : Type} {N : Num T}.
  Variable cosf : T -> T.
  Variable pi : T.

  (** one row of locdf without the two columns nothing reads (min_val_before, max_val_next);
      temperature.py:71-85, as [TempModel.loc_row] *)
  Record sine_row : Type := {
    r_min_loc : Z; r_max_loc : Z;
    r_min_cur : T; r_min_next : T; r_max_before : T; r_max_cur : T; r_mean : T }.

  (** temperature.py:112-122, as [TempModel.loc_rows] *)
  Definition value_at (s : series T) (t : Z) : T := match lookup t s with Some v => v | None => n_nan end.
  Definition sine_rows (idx : list Z) (mins maxs : list Z) (tmin tmax temp : series T) : list (Z * sine_row) :=
    map (fun p => match p with (t, mn, mx) =>
      (t, {| r_min_loc := mn; r_max_loc := mx;
             r_min_cur := value_at tmin t;
             r_min_next := if t =? last idx 0 then value_at tmin t else value_at tmin (t + us_day);
             r_max_before := if t =? hd 0 idx then value_at tmax t else value_at tmax (t - us_day);
             r_max_cur := value_at tmax t;
             r_mean := value_at temp t |}) end)
        (combine (combine idx mins) maxs).

  (** temperature.py:127-176, as [TempModel.sine_hour]. The locations and the hour are integers there too
      (astype(int), lines 109-110), so their differences are formed before the conversion to a number. *)
  Definition sine_value (use_mean mod_nighttime : bool) (r : sine_row) (h : Z) : T :=
    let min_val := if h <? r_max_loc r then r_min_cur r else r_min_next r in
    let max_val := if h <? r_min_loc r then r_max_before r else r_max_cur r in
    let mx := r_max_loc r in
    let mn := r_min_loc r in
    (if use_mean then
       r_mean r + (r_max_cur r - r_min_cur r) / n_ofZ 2 * cosf (n_ofZ 2 * pi / n_ofZ 24 * n_ofZ (h - mx))
     else
       let delta := max_val - min_val in
       let v_trans := min_val + delta / n_ofZ 2 in
       if mod_nighttime then
         if (mx <=? h)%Z then
           v_trans + delta / n_ofZ 2 * cosf (pi / n_ofZ (24 - (mx - mn)) * n_ofZ (h - mx))
         else if (mn <? h)%Z then
           v_trans + delta / n_ofZ 2 * cosf (lit 125 2 * pi + lit 75 2 * pi / n_ofZ (mx - mn) * n_ofZ (h - mn))
         else
           v_trans + delta / n_ofZ 2 * cosf (pi / n_ofZ (24 - (mx - mn)) * n_ofZ (24 - mx + h))
       else
         v_trans + delta / n_ofZ 2 * cosf (n_ofZ 2 * pi / n_ofZ 24 * n_ofZ (h - mx)))%num.

  (** temperature.py:59-176: the sine methods once the hours of minimum and maximum of every day are known;
      with the true cosine and pi the same as that part of [TempModel.disaggregate_temperature]
      (lemma [sine_model_agrees]) *)
  Definition temp_sine (e : env) (data_daily : dframe T) (use_mean mod_nighttime : bool) (mins maxs : list Z) : res (series T) :=
    let idx := f_index data_daily in
    let* hours := hourly_index e idx in
    let* tmin := fcol "tmin" data_daily in
    let* tmax := fcol "tmax" data_daily in
    let* temp := fcol "temp" data_daily in
    if has_dup idx || negb (is_increasing idx) then Err ValueError else
    let rows := sine_rows idx mins maxs tmin tmax temp in
    Ok (map (fun t => (t, match last_le t rows None with
                          | Some r => sine_value use_mean mod_nighttime r (hour_of t)
                          | None => n_nan end)) hours).

  (** wind.py:28-42 [_cosine_function] at one hour, as [WindModel.cosine1] *)
  Definition cosine_wind (w t a b t_shift : T) : T := (a * w * cosf (pi * (t - t_shift) / n_ofZ 12) + b * w)%num.
  (** wind.py:45-72 [disaggregate_wind(method='cosine')] with all three parameters: a plain array *)
  Definition wind_cosine (e : env) (wind : series T) (a b t_shift : T) : res (list T) :=
    let* eq := distribute_equally e wind false in
    Ok (map (fun p => cosine_wind (snd p) (n_ofZ (hour_of (fst p))) a b t_shift) eq).
End Generic.
