(** Model of melodist/temperature.py, on the exact extended reals. *)
From Coq Require Import String ZArith List Bool Reals.
From Verif Require Import Py Num Cal Series Trans UtilModel UtilModel2 Frame.
Import ListNotations.
Open Scope string_scope.
Open Scope Z_scope.
Open Scope list_scope.

Definition sun_table : Type := list (Z * sun_row).

(** assignment of a Series to a column: aligned by label *)
Definition align (s : series xr) (idx : list Z) : list xr :=
  map (fun t => match lookup t s with Some v => v | None => NaN end) idx.
Definition sun_col (f : sun_row -> xr) (st : sun_table) : series xr := map (fun p => (fst p, f (snd p))) st.

(** [.astype(int)]: truncation; NaN and infinities raise (IntCastingNaNError is a ValueError) *)
Definition Rtrunc (r : R) : Z := if Rltb r 0 then (- Int_part (- r))%Z else Int_part r.
Definition to_int (x : xr) : res Z := match x with Fin r => Ok (Rtrunc r) | _ => Err ValueError end.

(** temperature.py:87-107: the columns min_loc and max_loc before astype(int). With an unknown
    option they stay empty (NaN).
    Simplification: for 'sun_loc_shift' the sun times have the labels of the daily data (pandas
    raises IndexingError on foreign labels in the boolean selection of line 106). *)
Definition locations (idx : list Z) (min_max_time : string) (max_delta : option (list (Z * xr)))
           (sun_times : option sun_table) : res (list xr * list xr) :=
  if String.eqb min_max_time "fix" then                                              (* 87-90 *)
    Ok (map (fun _ => n_ofZ 7) idx, map (fun _ => n_ofZ 14) idx)
  else if String.eqb min_max_time "sun_loc" then                                     (* 91-96 *)
    match sun_times with
    | None => Err AttributeError
    | Some st => Ok (align (sun_col (fun r => xround (sunrise r)) st) idx,
                     align (sun_col (fun r => (xround (sunnoon r) + n_ofZ 2)%num) st) idx)
    end
  else if String.eqb min_max_time "sun_loc_shift" then                               (* 97-107 *)
    match sun_times with
    | None => Err AttributeError
    | Some st =>
        match max_delta with
        | None => Err TypeError
        | Some md =>
            let* deltas := mapM (fun t => match lookup (month_of t) md with Some v => Ok v | None => Err KeyError end) idx in
            if negb (Nat.eqb (length st) (length deltas)) then Err ValueError else
            let min_loc := align (sun_col (fun r => xround (sunrise r)) st) idx in
            let max_loc := align (map (fun p => (fst (fst p), xround (sunnoon (snd (fst p)) + snd p)%num)) (combine st deltas)) idx in
            let std := align (sun_col (fun r => (xround (sunnoon r) + n_ofZ 2)%num) st) idx in
            Ok (min_loc,
                map (fun p => match p with (mn, mx, s) => if (mn >? mx)%num then s else mx end)
                    (combine (combine min_loc max_loc) std))
        end
    end
  else Ok (map (fun _ => NaN) idx, map (fun _ => NaN) idx).

(** one row of locdf, temperature.py:71-85 *)
Record loc_row : Type := {
  min_loc : Z; max_loc : Z;
  min_val_before : xr; min_val_cur : xr; min_val_next : xr;
  max_val_before : xr; max_val_cur : xr; max_val_next : xr; mean_val_cur : xr }.

(** temperature.py:112-122: label shifts by one day; the last row has no following day and the
    first no preceding day, they get their own values *)
Definition label_shift (s : series xr) (days : Z) (t : Z) : xr :=
  match lookup (t - days * us_day) s with Some v => v | None => NaN end.
Definition loc_rows (idx : list Z) (mins maxs : list Z) (tmin tmax temp : series xr) : list (Z * loc_row) :=
  map (fun p => match p with (t, mn, mx) =>
    let get s := match lookup t s with Some v => v | None => NaN end in
    let lst := t =? last idx 0 in
    let fst_ := t =? hd 0 idx in
    (t, {| min_loc := mn; max_loc := mx;
           min_val_before := if fst_ then get tmin else label_shift tmin 1 t;
           min_val_cur := get tmin;
           min_val_next := if lst then get tmin else label_shift tmin (-1) t;
           max_val_before := if fst_ then get tmax else label_shift tmax 1 t;
           max_val_cur := get tmax;
           max_val_next := if lst then get tmax else label_shift tmax (-1) t;
           mean_val_cur := get temp |}) end)
      (combine (combine idx mins) maxs).

Inductive sine_kind : Type := SineMinMax | SineMean.

(** temperature.py:127-176: the value of hour [h] for the row [r] of its day *)
Definition sine_hour (kind : sine_kind) (mod_nighttime : bool) (r : loc_row) (h : Z) : xr :=
  let min_val := if h <? max_loc r then min_val_cur r else min_val_next r in (* 130-131 *)
  let max_val := if h <? min_loc r then max_val_before r else max_val_cur r in (* 136-137 *)
  let hr := (n_ofZ h : xr) in
  let mx := (n_ofZ (max_loc r) : xr) in
  let mn := (n_ofZ (min_loc r) : xr) in
  (match kind with
   | SineMinMax =>
       let delta := max_val - min_val in
       let v_trans := min_val + delta / n_ofZ 2 in
       if mod_nighttime then
         (* three assignments through masks; the last one wins *)
         if (max_loc r <=? h)%Z then                                             (* after_max *)
           v_trans + delta / n_ofZ 2 * xcos (xpi / (n_ofZ 24 - (mx - mn)) * (hr - mx))
         else if (min_loc r <? h)%Z then                                         (* between_min_max *)
           v_trans + delta / n_ofZ 2 * xcos (lit 125 2 * xpi + lit 75 2 * xpi / (mx - mn) * (hr - mn))
         else                                                                (* before_min *)
           v_trans + delta / n_ofZ 2 * xcos (xpi / (n_ofZ 24 - (mx - mn)) * (n_ofZ 24 - mx + hr))
       else
         v_trans + (delta / n_ofZ 2) * xcos (n_ofZ 2 * xpi / n_ofZ 24 * (hr - mx))
   | SineMean =>
       let dtr := max_val_cur r - min_val_cur r in
       mean_val_cur r + dtr / n_ofZ 2 * xcos (n_ofZ 2 * xpi / n_ofZ 24 * (hr - mx))
   end)%num.

(** [Series.diff()] of a boolean series: exclusive or with the row before, missing in row one *)
Definition bool_diff (l : list bool) : list (option bool) :=
  match l with
  | [] => []
  | a :: r => None :: map (fun p => Some (xorb (fst p) (snd p))) (combine l r)
  end.
(** selection with an object mask: raises ValueError when the mask has a missing entry *)
Definition mask_ok (m : list (option bool)) : bool := forallb (fun b => match b with Some _ => true | None => false end) m.

(** temperature.py:178-240, the part up to the selection [polars[polars.diff()]]; the rest of the
    branch is never reached ([polar_branch_raises] in TempProofs) and is not modelled. The
    assignments before it write into temp_disagg at hours of listed days. *)
Definition polar_branch (e : env) (st : sun_table) (hours : list Z) : res unit :=
  let polars := map (fun p => (fst p, (daylength (snd p) <? n_ofZ 3)%num)) st in
  match map fst (filter (fun p => snd p) polars) with
  | [] => Ok tt
  | days =>
      let* ph := hourly_index e days in
      if forallb (fun t => mem t hours) ph
      then if mask_ok (bool_diff (map snd polars)) then Ok tt else Err ValueError
      else Err KeyError                                                      (* temp_disagg.loc[...] *)
  end.

(** temperature.py:242, 251: reindex(hourly, method='ffill', limit=23) of one column: a label is
    used for its own row and at most 23 further ones *)
Definition reindex_ffill_limit (limit : Z) (s : series xr) (idx : list Z) : series xr :=
  map (fun t => (t,
    match last_le t (map (fun p => (fst p, p)) s) None with
    | Some (u, v) =>
        if Z.of_nat (length (filter (fun x => (u <? x) && (x <=? t)) idx)) <=? limit then v else NaN
    | None => NaN
    end)) idx.

(** temperature.py:245, 257-261, the course value of every hour: [course.unstack().loc[list(zip(month, hour))]] *)
Definition course_at (c : course xr) (t : Z) : res xr :=
  match lookup (month_of t) c with
  | Some col => match lookup (hour_of t) col with Some v => Ok v | None => Err KeyError end
  | None => Err KeyError
  end.
(** temperature.py:254-256 [course - course.mean()] *)
Definition zero_mean (c : course xr) : course xr :=
  map (fun p => (fst p, let m := nanmean (map snd (snd p)) in
                        map (fun q => (fst q, (snd q - m)%num)) (snd p))) c.

(** temperature.py:28-264 [disaggregate_temperature].
    Simplification: a decreasing daily index, which pandas accepts in reindex, raises here. *)
Definition disaggregate_temperature (e : env) (data_daily : dframe xr) (method min_max_time : string)
           (mod_nighttime : bool) (max_delta : option (list (Z * xr))) (mean_course : option (course xr))
           (sun_times : option sun_table) : res (series xr) :=
  let sine := (String.eqb method "sine_min_max") || (String.eqb method "sine_mean") || (String.eqb method "sine") in
  if negb (sine || (String.eqb method "mean_course_min_max") || (String.eqb method "mean_course_mean"))
  then Err ValueError                                                        (* 50-57 *)
  else
  let idx := f_index data_daily in
  let* hours := hourly_index e idx in                                        (* 59 *)
  if sine then
    let* locs := locations idx min_max_time max_delta sun_times in
    let* mins := mapM to_int (fst locs) in                                   (* 109 *)
    let* maxs := mapM to_int (snd locs) in                                   (* 110 *)
    let* tmin := fcol "tmin" data_daily in
    let* tmax := fcol "tmax" data_daily in
    let* temp := fcol "temp" data_daily in
    if has_dup idx || negb (is_increasing idx) then Err ValueError else      (* alignment, reindex *)
    let rows := loc_rows idx mins maxs tmin tmax temp in
    let kind := if String.eqb method "sine_mean" then SineMean else SineMinMax in
    let temp_disagg := map (fun t => (t, match last_le t rows None with
                                         | Some r => sine_hour kind mod_nighttime r (hour_of t)
                                         | None => NaN end)) hours in
    match sun_times with
    | None => Err AttributeError                                             (* 178 *)
    | Some st => let* _ := polar_branch e st hours in Ok temp_disagg
    end
  else if has_dup idx || negb (is_increasing idx) then Err ValueError else   (* reindex *)
  if String.eqb method "mean_course_min_max" then                                    (* 241-249 *)
    match mean_course with
    | None => Err AttributeError
    | Some c =>
        let* normval := mapM (course_at c) hours in
        let* tmin := fcol "tmin" data_daily in
        let* tmax := fcol "tmax" data_daily in
        let tmin := reindex_ffill_limit 23 tmin hours in
        let tmax := reindex_ffill_limit 23 tmax hours in
        Ok (map (fun p => match p with (nv, (t, lo), (_, hi)) => (t, (nv * (hi - lo) + lo)%num) end)
                (combine (combine normval tmin) tmax))
    end
  else                                                                       (* 250-262 *)
    let* tmax := fcol "tmax" data_daily in
    let* tmin := fcol "tmin" data_daily in
    match mean_course with
    | None => Err AttributeError
    | Some c =>
        let* mc := mapM (course_at (zero_mean c)) hours in
        let* temp := fcol "temp" data_daily in
        let tmin := reindex_ffill_limit 23 tmin hours in
        let tmax := reindex_ffill_limit 23 tmax hours in
        let temp := reindex_ffill_limit 23 temp hours in
        Ok (map (fun p => match p with (mcv, (t, lo), (_, hi), (_, m)) => (t, (m + (hi - lo) * mcv)%num) end)
                (combine (combine (combine mc tmin) tmax) temp))
    end.

(** temperature.py:267-287 [get_shift_by_data]: per day the hour of the first maximum (days
    without a valid value drop out), minus solar noon, averaged per month.
    Simplification: [groupby.idxmax] of a day without valid values gives NaT (it raises in pandas 3). *)
Fixpoint first_max (s : series xr) (best : option (Z * xr)) : option (Z * xr) :=
  match s with
  | [] => best
  | (t, v) :: r =>
      if n_isnan v then first_max r best
      else first_max r (match best with
                        | None => Some (t, v)
                        | Some (_, b) => if (b <? v)%num then Some (t, v) else best
                        end)
  end.
Definition rows_on {A} (d : Z) (s : list (Z * A)) : list (Z * A) := filter (fun p => date_of (fst p) =? d) s.
Fixpoint uniq (l : list Z) : list Z :=
  match l with [] => [] | a :: r => a :: filter (fun x => negb (x =? a)) (uniq r) end.
Definition get_shift_by_data (temp_hourly : series xr) (lon lat tz : xr) : list (Z * xr) :=
  let daily_index := index (resample us_day nanmean temp_hourly) in
  let st := get_sun_times daily_index lon lat tz in
  (* hour of the maximum for the dates that have one *)
  let obs := flat_map (fun d => match first_max (rows_on d temp_hourly) None with
                                | Some (t, _) => [(midnight d, (n_ofZ (hour_of t) : xr))]
                                | None => []
                                end) (uniq (map date_of (index temp_hourly))) in
  (* aligned difference; dates without a maximum are missing *)
  let delta := map (fun p => (fst p, match lookup (fst p) obs with
                                     | Some h => (h - sunnoon (snd p))%num
                                     | None => NaN end)) st in
  map (fun m => (m, nanmean (map snd (filter (fun p => month_of (fst p) =? m) delta))))
      (filter (fun m => existsb (fun p => month_of (fst p) =? m) delta) (map Z.of_nat (seq 1 12))).
