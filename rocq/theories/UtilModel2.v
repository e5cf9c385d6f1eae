(** Model of melodist/util/util.py, part 2. *)
From Coq Require Import String ZArith List Bool Reals.
From Verif Require Import Py Num Cal Series UtilModel Trans.
Import ListNotations.
Open Scope string_scope.
Open Scope Z_scope.
Open Scope list_scope.

(** ** detect_gaps, drop_incomplete_days *)

(** what detect_gaps prints *)
Inductive gap_msg : Type := GapBetween (a b : Z) | OnlyFirst (n : Z) | Total (n : Z).

(** util.py:249-297 [detect_gaps]; [step] is the time step in microseconds. Loop state:
    gap count, message counter, warning flag, output. An object without index (return -1) is not
    modelled; the float quotient delta/1e9 is compared exactly. *)
Fixpoint gaps_loop (e : env) (step : Z) (print_all : bool) (print_max : Z) (verbose : bool)
         (prev : Z) (rest : list Z) (gcount msgs : Z) (warned : bool) (out : list gap_msg)
  : res (Z * list gap_msg) :=
  match rest with
  | [] => Ok (gcount, if verbose then out ++ [Total gcount] else out)
  | t :: r =>
      if has_timedelta_delta e then
        if t - prev =? step then gaps_loop e step print_all print_max verbose t r gcount msgs warned out
        else
          let show := print_all || (msgs <=? print_max - 1) in
          let out := if show && verbose then out ++ [GapBetween prev t] else out in
          let msgs := if show then msgs + 1 else msgs in
          let note := (msgs =? print_max) && verbose && negb warned in
          gaps_loop e step print_all print_max verbose t r (gcount + 1) msgs (warned || note)
                    (if note then out ++ [OnlyFirst msgs] else out)
      else Err AttributeError                                               (* time_diff.delta *)
  end.
Definition detect_gaps (e : env) (step : Z) (print_all : bool) (print_max : Z) (verbose : bool)
           (idx : list Z) : res (Z * list gap_msg) :=
  match idx with
  | [] => Ok (0, if verbose then [Total 0] else [])
  | t :: r => gaps_loop e step print_all print_max verbose t r 0 0 false []
  end.

(** util.py:300-352 [drop_incomplete_days] *)
Definition at_hour (h t : Z) : bool := (hour_of t =? h) && (minute_of t =? 0).
Fixpoint head_loop (first : Z) (i : nat) (idx : list Z) : list nat :=       (* 336-341 *)
  match idx with
  | [] => []
  | t :: r => if at_hour first t then [] else i :: head_loop first (S i) r
  end.
Fixpoint tail_loop (last : Z) (idx : list Z) (i : nat) : list nat :=        (* 344-349: i = n-1 .. 1 *)
  match i with
  | O => []
  | S j => if at_hour last (nth i idx 0) then [] else i :: tail_loop last idx j
  end.
Definition drop_incomplete_days {A} (shift : Z) (s : list (Z * A)) : list (Z * A) :=
  let shift := if (23 <? shift) || (shift <? 0) then 0 else shift in
  let first := shift in
  let last := if first - 1 <? 0 then first - 1 + 24 else first - 1 in
  let idx := map fst s in
  let n := length idx in
  let delete := head_loop first 0 idx ++ tail_loop last idx (n - 1) in
  let labels := map (fun i => nth i idx 0) delete in
  filter (fun p => negb (mem (fst p) labels)) s.                            (* drop by label *)

(** ** daily_from_hourly, mean daily courses *)
Section Generic.
  Context {T : Type} {N : Num T}.

  (** util.py:374-414 [daily_from_hourly]: resample('D') / groupby(date) per column.
      The result of a groupby is aligned with the index of the resampled column. *)
  Definition day_mean : series T -> series T := resample us_day nanmean.    (* temp glob hum wind *)
  Definition day_sum : series T -> series T := resample us_day nansum.      (* precip *)
  Definition day_min : series T -> series T := resample us_day nanmin.      (* tmin hum_min *)
  Definition day_max : series T -> series T := resample us_day nanmax.      (* tmax hum_max *)
  Definition day_ssd (s : series T) : series T :=                           (* 410-411 *)
    map (fun p => (fst p, (snd p / n_ofZ 60)%num)) (day_sum s).

  Definition frame : Type := list (string * series T).
  Fixpoint get_col (name : string) (df : frame) : option (series T) :=
    match df with
    | [] => None
    | (n, s) :: r => if String.eqb n name then Some s else get_col name r
    end.
  (** [if name in df: df_daily[out] = agg(df[name])] *)
  Definition add_col (df : frame) (name out : string) (agg : series T -> series T) : frame :=
    match get_col name df with Some s => [(out, agg s)] | None => [] end.
  Definition daily_from_hourly (df : frame) : frame :=
    add_col df "temp" "temp" day_mean ++ add_col df "temp" "tmin" day_min ++ add_col df "temp" "tmax" day_max ++
     add_col df "precip" "precip" day_sum ++
     add_col df "glob" "glob" day_mean ++
     add_col df "hum" "hum" day_mean ++ add_col df "hum" "hum_min" day_min ++ add_col df "hum" "hum_max" day_max ++
     add_col df "wind" "wind" day_mean ++
     add_col df "ssd" "ssd" day_ssd.

  (** a table with one column per month and one row per hour *)
  Definition course : Type := list (Z * list (Z * T)).

  (** util.py:417-430 [calculate_mean_daily_course_by_month]: columns are the months that occur,
      rows the hours that occur in any month; absent combinations are NaN *)
  Definition month_hour_mean (s : series T) (m h : Z) : T :=
    nanmean (map snd (filter (fun p => (month_of (fst p) =? m) && (hour_of (fst p) =? h)) s)).
  Definition normalise (c : list (Z * T)) : list (Z * T) :=
    let lo := nanmin (map snd c) in
    let hi := nanmax (map snd c) in
    map (fun p => (fst p, ((snd p - lo) / (hi - lo))%num)) c.
  Definition mean_course (s : series T) (norm : bool) : course :=
    let months := filter (fun m => existsb (fun t => month_of t =? m) (index s)) (map Z.of_nat (seq 1 12)) in
    let hours := filter (fun h => existsb (fun t => hour_of t =? h) (index s)) (map Z.of_nat (seq 0 24)) in
    map (fun m => (m, let c := map (fun h => (h, month_hour_mean s m h)) hours in
                      if norm then normalise c else c)) months.

  (** util.py:355-371 [prepare_interpolation_data]; a column is its values, one per day, and its
      hour. Columns follow one another in the dictionary order. *)
  Fixpoint collect_columns (e : env) (days : list Z) (cols : list (Z * list T)) (acc : series T) : res (series T) :=
    match cols with
    | [] => Ok acc
    | (hour, vals) :: r =>
        let idx := date_range (replace_hour (hd 0 days) hour) (replace_hour (last days 0) hour) us_day in
        let* s := mk_series idx vals in
        if has_series_append e then collect_columns e days r (acc ++ s) else Err AttributeError
    end.
  Fixpoint insert_obs (p : Z * T) (l : series T) : series T :=
    match l with [] => [p] | q :: r => if fst p <=? fst q then p :: l else q :: insert_obs p r end.
  Definition prepare_interpolation_data (e : env) (days : list Z) (cols : list (Z * list T)) : res (series T) :=
    match days with
    | [] => Err IndexError                                                  (* index[0] *)
    | _ =>
        let* data := collect_columns e days cols [] in
        let data := fold_right insert_obs [] data in
        let* idx := hourly_index e days in
        reindex data idx
    end.
End Generic.
Arguments course T : clear implicits.
Arguments frame T : clear implicits.

(** ** vapour pressure and dew point (exact reals) *)
Definition c_zero : xr := lit 27315 2.

(** util.py:70-102 [vapor_pressure], one element *)
Definition vapor_pressure1 (temp hum : xr) : xr :=
  if (c_zero <=? temp)%num then
    (lit 6112 3 * xexp ((lit 1762 2 * (temp - c_zero)) / (lit 24312 2 + (temp - c_zero))) * hum / n_ofZ 100)%num
  else
    (lit 6112 3 * xexp ((lit 2246 2 * (temp - c_zero)) / (lit 27262 2 + (temp - c_zero))) * hum / n_ofZ 100)%num.
Definition vapor_pressure (temp hum : list xr) : res (list xr) :=
  if Nat.eqb (length temp) (length hum)
  then Ok (map (fun p => vapor_pressure1 (fst p) (snd p)) (combine temp hum))
  else Err AssertionError.
(** scalar humidity *)
Definition vapor_pressure_scalar (temp : list xr) (hum : xr) : res (list xr) :=
  vapor_pressure temp (map (fun _ => (n0 + hum)%num) temp).

(** util.py:105-134 [dewpoint_temperature], one element *)
Definition dewpoint1 (temp hum : xr) : xr :=
  let v := vapor_pressure1 temp hum in
  let l := xln (v / lit 6112 3)%num in
  ((if (c_zero <=? temp)%num then lit 24312 2 * l / (lit 1762 2 - l)
    else lit 27262 2 * l / (lit 2246 2 - l)) + c_zero)%num.
Definition dewpoint_temperature (temp hum : list xr) : res (list xr) :=
  if Nat.eqb (length temp) (length hum)
  then Ok (map (fun p => dewpoint1 (fst p) (snd p)) (combine temp hum))
  else Err AssertionError.

(** ** sun times (exact reals) *)
Record sun_row : Type := { sunrise : xr; sunnoon : xr; sunset : xr; daylength : xr }.

(** util.py:160-246 [get_sun_times] for one date with day of year [doy] *)
Definition declination (doy : Z) : xr :=
  let a := deg2rad ((n_ofZ 360 / lit 36525 2) * (n_ofZ doy - lit 79346 3))%num in
  deg2rad (lit 3723 4 + lit 232567 4 * xsin a - lit 7580 4 * xcos a
           + lit 1149 4 * xsin (n_ofZ 2 * a) + lit 3656 4 * xcos (n_ofZ 2 * a)
           - lit 1712 4 * xsin (n_ofZ 3 * a) + lit 201 4 * xcos (n_ofZ 3 * a))%num.
Definition eq_time (doy : Z) : xr :=
  let a := (n_ofZ 2 * xpi * n_ofZ (doy - 1) / n_ofZ 365)%num in
  (n_ofZ 12 / xpi * (lit 75 6 + lit 1868 6 * xcos a - lit 32077 6 * xsin a
                     - lit 14615 6 * xcos (n_ofZ 2 * a) - lit 40849 6 * xsin (n_ofZ 2 * a)))%num.
(** before the adjustment to 0..24: sunrise, noon, sunset *)
Definition sun_raw (doy : Z) (lon lat tz : xr) : xr * xr * xr :=
  let eq := eq_time doy in
  let delta := ((lon - tz * n_ofZ 15) * n_ofZ 24 / n_ofZ 360)%num in
  let arg := (- xtan (deg2rad lat) * xtan (declination doy))%num in
  let omega := xacos arg in
  let rise := (n_ofZ 12 * (n1 - omega / xpi) - delta - eq)%num in
  let set := (n_ofZ 12 * (n1 + omega / xpi) - delta - eq)%num in
  let noon := (n_ofZ 12 * n1 - delta - eq)%num in
  let (rise, set) := if (arg <? n_ofZ (-1))%num then ((noon - n_ofZ 12)%num, (noon + n_ofZ 12)%num) else (rise, set) in
  let (rise, set) := if (arg >? n1)%num then (noon, noon) else (rise, set) in
  (rise, noon, set).
Definition sun_times1 (doy : Z) (lon lat tz : xr) : sun_row :=
  let '(rise, noon, set) := sun_raw doy lon lat tz in
  {| sunrise := if (rise <? n0)%num then (rise + n_ofZ 24)%num else rise;
     sunnoon := noon;
     sunset := if (set >? n_ofZ 24)%num then (set - n_ofZ 24)%num else set;
     daylength := (set - rise)%num |}.
(** the day of the year counts from January 1st at the same time of day *)
Definition get_sun_times (dates : list Z) (lon lat tz : xr) : list (Z * sun_row) :=
  map (fun t => (t, sun_times1 (doy_of_day (date_of t)) lon lat tz)) dates.
