(** Model of melodist/radiation.py and of StationStatistics.calc_radiation_stats, on the exact
    extended reals. *)
From Coq Require Import String ZArith List Bool Reals.
From Verif Require Import Py Num Cal Series Trans UtilModel UtilModel2 Frame TempModel.
Import ListNotations.
Open Scope string_scope.
Open Scope Z_scope.
Open Scope list_scope.

(** [.clip(min=0)]: NaN stays NaN *)
Definition clip0 (x : xr) : xr := if (x <? n0)%num then n0 else x.

(** radiation.py:145-197 [potential_radiation] for one time stamp: direct and diffuse part.
    terrain_slope, terrain_slope_azimuth and cloud_fraction are scalars. *)
Definition solar_decline (doy : Z) : xr :=                                   (* 147-158 *)
  (deg2rad (lit 2343697 5) * xcos (n_ofZ 2 * xpi * (n_ofZ doy - n_ofZ 173) / lit 36525 2))%num.
Definition hour_angle (hour minute : Z) (lon tz : xr) : xr :=                (* 161-163 *)
  let standard_meridian := (tz * n_ofZ 15)%num in
  let delta_lat_time := ((lon - standard_meridian) * n_ofZ 24 / n_ofZ 360)%num in
  (xpi * (((n_ofZ hour + n_ofZ minute / n_ofZ 60 + delta_lat_time) / n_ofZ 12) - n1))%num.
Definition radius_ratio (doy : Z) : xr :=                                    (* 177-184 *)
  let beta := (n_ofZ 2 * xpi * (n_ofZ doy / lit 36525 2))%num in
  (lit 100011 5 + lit 34221 6 * xcos beta + lit 128 5 * xsin beta
   + lit 719 6 * xcos (n_ofZ 2 * beta) + lit 77 6 * xsin (n_ofZ 2 * beta))%num.
Definition potential_radiation1 (doy hour minute : Z) (lon lat tz slope azimuth cloud : xr) : xr * xr :=
  let decl := solar_decline doy in
  let ha := hour_angle hour minute lon tz in
  let cosz := (xsin decl * xsin (deg2rad lat) + xcos decl * xcos (deg2rad lat) * xcos ha)%num in
  let cosz := clip0 cosz in                                                  (* 169 *)
  let zenith := xacos cosz in
  let t_direct := ((lit 6 1 + lit 2 1 * cosz) * (n1 - cloud))%num in
  let t_diffuse := ((lit 3 1 + lit 1 1 * cosz) * cloud)%num in
  let sc := (n_ofZ 1367 * radius_ratio doy)%num in
  let mu := xasin (xcos decl * xsin ha / xsin zenith)%num in
  let cosi := (xcos slope * cosz + xsin slope * xsin zenith * xcos (mu - azimuth))%num in
  (clip0 (sc * t_direct * cosi)%num, (sc * t_diffuse * cosz)%num).

(** radiation.py:104-204 [potential_radiation]; the frame for split=True *)
Definition potential_split (dates : list Z) (lon lat tz slope azimuth cloud : xr) : list (Z * (xr * xr)) :=
  map (fun t => (t, potential_radiation1 (doy_of_day (date_of t)) (hour_of t) (minute_of t) lon lat tz slope azimuth cloud)) dates.
Definition potential_radiation (dates : list Z) (lon lat tz slope azimuth cloud : xr) : series xr :=
  map (fun p => (fst p, (fst (snd p) + snd (snd p))%num)) (potential_split dates lon lat tz slope azimuth cloud).

(** model parameters: two numbers, or two series by month. Simplification: both of the same kind. *)
Inductive params : Type := PScalar (a b : xr) | PMonthly (la lb : list (Z * xr)).

(** [a.loc[months].values]: KeyError when a month is missing *)
Definition month_param (l : list (Z * xr)) (t : Z) : res xr :=
  match lookup (month_of t) l with Some v => Ok v | None => Err KeyError end.
Definition params_at (p : params) (t : Z) : res (xr * xr) :=
  match p with
  | PScalar a b => Ok (a, b)
  | PMonthly la lb => let* a := month_param la t in let* b := month_param lb t in Ok (a, b)
  end.

(** radiation.py:309 *)
Definition angstroem1 (ssd day_length pot a b : xr) : xr := ((a + b * ssd / day_length) * pot)%num.
(** radiation.py:283-311 [angstroem], the three series on the same labels *)
Definition angstroem (ps : params) (rows : list (Z * (xr * xr * xr))) : res (series xr) :=
  mapM (fun r => match r with (t, (ssd, dl, pot)) =>
          let* ab := params_at ps t in Ok (t, angstroem1 ssd dl pot (fst ab) (snd ab)) end) rows.

(** [s.loc[t]] *)
Definition at_label (s : series xr) (t : Z) : res xr :=
  match lookup t s with Some v => Ok v | None => Err KeyError end.

(** radiation.py:207-248 [bristow_campbell] *)
Definition bc_B (dt_avg : xr) : xr := (lit 36 3 * xexp (lit (-154) 3 * dt_avg))%num.
Definition bc1 (A C B dT pot : xr) : xr := (A * (n1 - xexp (- B * xpow dT C)) * pot)%num.
Fixpoint zlist_eqb (a b : list Z) : bool :=
  match a, b with [], [] => true | x :: a, y :: b => (x =? y) && zlist_eqb a b | _, _ => false end.
Definition bristow_campbell (ps : params) (tmin tmax pot_rad_daily : series xr) : res (series xr) :=
  if negb (zlist_eqb (index tmin) (index tmax)) then Err AssertionError else (* 224 *)
  match index tmin with
  | [] => Err IndexError                                                     (* 227 *)
  | t0 :: _ =>
      let idx := index tmin in
      let full := date_range t0 (last idx t0) us_day in
      if has_dup idx then Err ValueError else                                (* reindex *)
      let get s t := match lookup t s with Some v => v | None => NaN end in
      let tmin_full := map (fun t => (t, get tmin t)) full in
      (* 228-229: the next row, the last row keeps its own *)
      let nextday := combine full (map snd (skipn 1 tmin_full) ++ map snd (skipn (length full - 1) tmin_full)) in
      let* rows := mapM (fun t => let* n := at_label nextday t in            (* 231 *)
                                  let* lo := at_label tmin_full t in Ok (t, (get tmax t - (lo + n) / n_ofZ 2)%num)) idx in
      let* pots := mapM (fun t => at_label pot_rad_daily t) idx in           (* 232 *)
      let avg m := nanmean (map snd (filter (fun p => month_of (fst p) =? m) rows)) in
      mapM (fun q => match q with (t, dT, pot) =>
              let* ac := params_at ps t in
              Ok (t, bc1 (fst ac) (snd ac) (bc_B (avg (month_of t))) dT pot) end) (combine rows pots)
  end.

(** radiation.py:94-99: scaling of the potential radiation with the ratio of daily means *)
Definition cut (x : xr) : xr := if (x <? lit 1 2)%num then n0 else x.
Definition scale (pot : series xr) (pot_daily globalrad : series xr) : series xr :=
  map (fun p => (fst p, cut (snd p / lookup_ffill (fst p) pot_daily NaN * lookup_ffill (fst p) globalrad NaN)%num)) pot.

(** radiation.py:32-101 [disaggregate_radiation] *)
Definition disaggregate_radiation (e : env) (data_daily : dframe xr) (sun_times : option sun_table)
           (pot_rad : option (series xr)) (method : string) (angstr bristcamp : params)
           (mean_course : option (course xr)) : res (series xr) :=
  if negb (String.eqb method "pot_rad" || String.eqb method "pot_rad_via_ssd" ||
           String.eqb method "pot_rad_via_bc" || String.eqb method "mean_course") then Err ValueError else
  let idx := f_index data_daily in
  let* hours := hourly_index e idx in                                        (* 61 *)
  let* pot := (if String.eqb method "mean_course" then
                 match mean_course with
                 | None => Err AssertionError
                 | Some c => let* v := mapM (course_at c) hours in Ok (combine hours v)
                 end
               else match pot_rad with None => Err AssertionError | Some p => Ok p end) in
  let pot_daily := resample us_day nanmean pot in                            (* 73 *)
  let* globalrad :=
    (if String.eqb method "pot_rad" || String.eqb method "mean_course" then fcol "glob" data_daily
     else if String.eqb method "pot_rad_via_ssd" then                        (* 79-87 *)
       match sun_times with
       | None => Err AttributeError
       | Some st =>
           let lit_days := filter (fun p => (daylength (snd p) >? n0)%num) st in
           let* ssd := fcol "ssd" data_daily in
           let* rows := mapM (fun p => let* s := at_label ssd (fst p) in
                                       let* q := at_label pot_daily (fst p) in
                                       Ok (fst p, (s, daylength (snd p), q))) lit_days in
           let* vals := angstroem angstr rows in
           Ok (map (fun t => (t, match lookup t vals with Some v => v | None => n0 end)) idx)
       end
     else                                                                    (* 90-92 *)
       let* tmin := fcol "tmin" data_daily in
       let* tmax := fcol "tmax" data_daily in
       bristow_campbell bristcamp tmin tmax pot_daily) in
  if has_dup (index globalrad) || negb (is_increasing (index globalrad)) then Err ValueError else (* reindex *)
  Ok (scale pot pot_daily globalrad).

(** ** calc_radiation_stats *)

(** [pd.DataFrame(data=dict(...four series...)).dropna(how='any')]: outer join on the sorted union of
    the labels, rows with a missing value dropped *)
Fixpoint zinsert (x : Z) (l : list Z) : list Z :=
  match l with [] => [x] | y :: r => if x <? y then x :: l else if x =? y then l else y :: zinsert x r end.
Definition row4 : Type := Z * (xr * xr * xr * xr).
Definition join4 (a b c d : series xr) : list row4 :=
  let labels := fold_right zinsert [] (index a ++ index b ++ index c ++ index d) in
  flat_map (fun t => match lookup t a, lookup t b, lookup t c, lookup t d with
                     | Some x, Some y, Some z, Some w =>
                         if n_isnan x || n_isnan y || n_isnan z || n_isnan w then [] else [(t, (x, y, z, w))]
                     | _, _, _, _ => []
                     end) labels.

(** stationstatistics.py:155-159 [extract_months] *)
Definition extract_months (s : series xr) (months : list Z) : series xr :=
  filter (fun p => mem (month_of (fst p)) months) s.

(** the radiation part of a StationStatistics object, stationstatistics.py:53-61 *)
Record glob_stats : Type := {
  g_course : option (course xr);
  g_angstroem : list (Z * (xr * xr));
  g_bristcamp : list (Z * (xr * xr)) }.
Definition init_glob : glob_stats :=
  {| g_course := None;
     g_angstroem := map (fun m => (Z.of_nat m, (lit 25 2, lit 75 2))) (seq 1 12);
     g_bristcamp := map (fun m => (Z.of_nat m, (lit 75 2, lit 24 1))) (seq 1 12) |}.

(** [table.loc[month] = x, y]: replaces the row, or appends one *)
Fixpoint set_row (m : Z) (v : xr * xr) (tbl : list (Z * (xr * xr))) : list (Z * (xr * xr)) :=
  match tbl with
  | [] => [(m, v)]
  | (k, w) :: r => if k =? m then (k, v) :: r else (k, w) :: set_row m v r
  end.
Definition set_months (ms : list Z) (v : xr * xr) (tbl : list (Z * (xr * xr))) : list (Z * (xr * xr)) :=
  fold_left (fun t m => set_row m v t) ms tbl.
(** the loops of 162-172 and 184-193: table, exception if one was raised, and what is left of the
    iterator *)
Fixpoint fit_loop (fit : list Z -> res (xr * xr)) (ranges : list (list Z)) (tbl : list (Z * (xr * xr)))
  : list (Z * (xr * xr)) * option exn :=
  match ranges with
  | [] => (tbl, None)
  | ms :: r => match fit ms with
               | Err e => (tbl, Some e)
               | Ok v => fit_loop fit r (set_months ms v tbl)
               end
  end.
Definition all_months : list Z := map Z.of_nat (seq 1 12).
(** month_ranges, 147-152; the flag says that it is an iterator, which a loop exhausts *)
Definition month_ranges (how : string) : list (list Z) * bool :=
  if String.eqb how "all" then ([all_months], false)
  else if String.eqb how "seasonal" then ([[3; 4; 5]; [6; 7; 8]; [9; 10; 11]; [12; 1; 2]], false)
  else (map (fun m => [m]) all_months, true).                                (* zip(...) *)

Section Fits.
  (** scipy.optimize.curve_fit on the rows (ssd, day_length, pot, obs), radiation.py:338-344 *)
  Variable curve_fit : list row4 -> res (xr * xr).
  (** scipy.optimize.minimize of the absolute bias on the rows (tmin, tmax, pot, obs), radiation.py:272-280 *)
  Variable minimize_bias : list row4 -> res (xr * xr).

  (** stationstatistics.py:124-192 [calc_radiation_stats]: the new state and the exception, if any *)
  Definition calc_radiation_stats (e : env) (data : option (dframe xr)) (lon lat tz : option xr)
             (data_daily : option (dframe xr)) (day_length : option (series xr)) (how : string)
             (st : glob_stats) : glob_stats * option exn :=
    if negb (String.eqb how "all" || String.eqb how "seasonal" || String.eqb how "monthly")
    then (st, Some AssertionError) else
    match data with None => (st, Some AttributeError) | Some df =>
    match fcol "glob" df with Err x => (st, Some x) | Ok glob =>
    let st := {| g_course := Some (mean_course glob false);                  (* 139 *)
                 g_angstroem := g_angstroem st; g_bristcamp := g_bristcamp st |} in
    match data_daily with None => (st, None) | Some dd =>
    match hourly_index e (f_index dd) with Err x => (st, Some x) | Ok hours =>
    match lon, lat, tz with
    | Some lon, Some lat, Some tz =>
        let pot_daily := resample us_day nanmean (potential_radiation hours lon lat tz n0 n0 n0) in
        let obs_daily := resample us_day nanmean glob in
        let (ranges, once) := month_ranges how in
        let has c := match assoc c (f_cols dd) with Some _ => true | None => false end in
        let col c := match fcol c dd with Ok s => s | Err _ => [] end in
        (* 161-171 *)
        let '(tbl, err, rest) :=
          match has "ssd", day_length with
          | true, Some dl =>
              let '(tbl, err) := fit_loop (fun ms => curve_fit (join4 (extract_months (col "ssd") ms) (extract_months dl ms)
                                             (extract_months pot_daily ms) (extract_months obs_daily ms))) ranges (g_angstroem st) in
              (tbl, err, if once then [] else ranges)
          | _, _ => (g_angstroem st, None, ranges)
          end in
        let st := {| g_course := g_course st; g_angstroem := tbl; g_bristcamp := g_bristcamp st |} in
        match err with Some x => (st, Some x) | None =>
        (* 173-192 *)
        if has "tmin" && has "tmax" then
          let df := join4 (col "tmin") (col "tmax") pot_daily obs_daily in
          let '(tbl, err) := fit_loop (fun ms => minimize_bias (filter (fun r => mem (month_of (fst r)) ms) df)) rest (g_bristcamp st) in
          ({| g_course := g_course st; g_angstroem := g_angstroem st; g_bristcamp := tbl |}, err)
        else (st, None)
        end
    | _, _, _ => (st, Some TypeError)
    end end end end end.
End Fits.
