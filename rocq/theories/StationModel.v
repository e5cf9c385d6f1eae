(** Model of melodist/station.py (class Station) and of the state of melodist/stationstatistics.py
    (class StationStatistics) except its JSON part. Numbers are exact ([xr]). *)
From Coq Require Import String ZArith List Bool.
From Verif Require Import Py Num Cal Series Frame UtilModel CascadeModel PrecipModel AggModel Trans UtilModel2
  TempModel RadModel HumModel WindModel.
Import ListNotations.
Open Scope string_scope.
Open Scope Z_scope.
Open Scope list_scope.

(** ** Python values given to the data setters *)
(** a DataFrame: is the index a DatetimeIndex, does it carry a frequency, content *)
Record pframe : Type := { p_datetime : bool; p_freq : bool; p_data : dframe xr }.
Inductive pyval : Type := VFrame (f : pframe) | VOther.

(** [index.resolution == 'day']: every stamp at midnight; [== 'hour']: every stamp at a full hour,
    not all at midnight (time-zone-free stamps) *)
Definition day_resolution (idx : list Z) : bool := forallb (fun t => t mod us_day =? 0) idx.
Definition hour_resolution (idx : list Z) : bool :=
  forallb (fun t => t mod us_hour =? 0) idx && negb (day_resolution idx).

(** [df.reindex(idx)] *)
Definition frame_reindex (d : dframe xr) (idx : list Z) : res (dframe xr) :=
  if has_dup (f_index d) then Err ValueError
  else Ok (Build_dframe idx (map (fun c => (fst c, align (combine (f_index d) (snd c)) idx)) (f_cols d))).

(** ** Objects *)
(** stationstatistics.py:39-61, the attributes of a StationStatistics object *)
Record sstats : Type := {
  q_lon : option xr; q_lat : option xr; q_tz : option xr;
  q_data : option (dframe xr);
  q_wind_a : option xr; q_wind_b : option xr; q_wind_shift : option xr;
  q_months : option (list (option (list Z))); q_casc : option (list (casc_arg xr));
  q_a0 : option xr; q_a1 : option xr; q_kr : option Z; q_mhp : option (list (mhp_key * xr));
  q_delta : option (list (Z * xr)); q_tcourse : option (course xr);
  q_glob : glob_stats }.
Definition new_stats (lon lat tz : option xr) : sstats :=
  {| q_lon := lon; q_lat := lat; q_tz := tz; q_data := None;
     q_wind_a := None; q_wind_b := None; q_wind_shift := None;
     q_months := None; q_casc := None; q_a0 := None; q_a1 := None; q_kr := None; q_mhp := None;
     q_delta := None; q_tcourse := None; q_glob := init_glob |}.

(** station.py:53-70, the attributes of a Station; [s_stats] is a reference.
    id and name (plain attributes, never read) are left out. *)
Record station : Type := {
  s_lon : option xr; s_lat : option xr; s_tz : option xr;
  s_stats : nat;
  s_daily : option (dframe xr);
  s_disagg : option (dframe xr);
  s_sun : option sun_table }.
Definition with_daily (st : station) v :=
  {| s_lon := s_lon st; s_lat := s_lat st; s_tz := s_tz st; s_stats := s_stats st;
     s_daily := v; s_disagg := s_disagg st; s_sun := s_sun st |}.
Definition with_disagg (st : station) v :=
  {| s_lon := s_lon st; s_lat := s_lat st; s_tz := s_tz st; s_stats := s_stats st;
     s_daily := s_daily st; s_disagg := v; s_sun := s_sun st |}.
Definition with_sun (st : station) v :=
  {| s_lon := s_lon st; s_lat := s_lat st; s_tz := s_tz st; s_stats := s_stats st;
     s_daily := s_daily st; s_disagg := s_disagg st; s_sun := v |}.

(** all statistics objects and all stations of the program *)
Record world : Type := { w_stats : list sstats; w_stations : list station }.

(** ** Daily data *)
(** station.py:172-179 [calc_sun_times]: AttributeError without daily data, TypeError when lon, lat
    or timezone is None *)
Definition calc_sun_times (st : station) : station * option exn :=
  match s_daily st with
  | None => (st, Some AttributeError)
  | Some df =>
      match s_lon st, s_lat st, s_tz st with
      | Some lon, Some lat, Some tz => (with_sun st (Some (get_sun_times (f_index df) lon lat tz)), None)
      | _, _, _ => (st, Some TypeError)
      end
  end.

(** station.py:45-51 *)
Definition columns_hourly : list string := ["temp"; "precip"; "glob"; "hum"; "wind"].
(** pd.DataFrame(index=index, columns=..., dtype=float) *)
Definition empty_hourly (idx : list Z) : dframe xr :=
  Build_dframe idx (map (fun c => (c, map (fun _ => NaN) idx)) columns_hourly).
(** station.py:92-96: a value below 200 in the column, if there is one *)
Definition too_cold (df : dframe xr) (var : string) : bool :=
  match assoc var (f_cols df) with
  | Some v => existsb (fun x => (x <? n_ofZ 200)%num) v
  | None => false
  end.
(** station.py:89-90: the frame with one row per day, if the index has no frequency *)
Definition fill_days (f : pframe) : res (dframe xr) :=
  let d := p_data f in
  if p_freq f then Ok d else
  match f_index d with
  | [] => Err IndexError
  | t0 :: _ => frame_reindex d (date_range t0 (last (f_index d) t0) us_day)
  end.

(** station.py:80-106, the setter of data_daily: new state and the exception, if any *)
Definition set_daily (e : env) (st : station) (v : pyval) : station * option exn :=
  match v with
  | VOther => (st, Some AssertionError)                                      (* 82 *)
  | VFrame f =>
      let idx := f_index (p_data f) in
      if negb (p_datetime f) then (st, Some AssertionError) else             (* 83 *)
      if negb (day_resolution idx) then (st, Some AssertionError) else       (* 86 *)
      if negb (is_increasing idx) then (st, Some AssertionError) else        (* 87 *)
      match fill_days f with                                                 (* 89-90 *)
      | Err x => (st, Some x)
      | Ok df =>
          if existsb (too_cold df) ["tmin"; "tmax"; "tmean"] then (st, Some AssertionError) else
          let st := with_daily st (Some df) in                               (* 98 *)
          match hourly_index e (f_index df) with                             (* 101 *)
          | Err x => (st, Some x)
          | Ok hours =>
              let st := with_disagg st (Some (empty_hourly hours)) in        (* 102-103 *)
              match s_tz st with                                             (* 105-106 *)
              | None => (st, None)
              | Some _ => calc_sun_times st
              end
          end
      end
  end.

(** ** Disaggregation methods *)
(** [self.data_disagg.<name> = v] for an existing column: a Series is aligned on the labels, an array
    must have the length of the frame *)
Definition put_column (name : string) (vals : list xr) (d : dframe xr) : dframe xr :=
  Build_dframe (f_index d) (map (fun c => if String.eqb (fst c) name then (name, vals) else c) (f_cols d)).
Definition put_series (name : string) (s : series xr) (st : station) : station * option exn :=
  match s_disagg st with
  | None => (st, Some AttributeError)
  | Some d =>
      if same_labels (index s) (f_index d) then (with_disagg st (Some (put_column name (values s) d)), None)
      else if has_dup (index s) then (st, Some ValueError)
      else (with_disagg st (Some (put_column name (align s (f_index d)) d)), None)
  end.
Definition put_array (name : string) (l : list xr) (st : station) : station * option exn :=
  match s_disagg st with
  | None => (st, Some AttributeError)
  | Some d =>
      if Nat.eqb (length l) (length (f_index d)) then (with_disagg st (Some (put_column name l d)), None)
      else (st, Some ValueError)
  end.
(** [self.data_daily.<name>] *)
Definition daily_col (st : station) (name : string) : res (series xr) :=
  match s_daily st with None => Err AttributeError | Some df => fcol name df end.
(** [self.data_daily] handed to a function: with None the first use inside fails (before that
    disaggregate_humidity reads self.data_disagg.temp and disaggregate_radiation computes the sun times,
    both fail first on a station without daily data) *)
Definition daily_frame (st : station) : res (dframe xr) :=
  match s_daily st with None => Err AttributeError | Some df => Ok df end.
(** the same for disaggregate_temperature, which tests the method name first (temperature.py:50-59) *)
Definition daily_frame_temp (st : station) (method : string) : res (dframe xr) :=
  match s_daily st with
  | None => Err (if existsb (String.eqb method) ["sine_min_max"; "sine_mean"; "sine"; "mean_course_min_max"; "mean_course_mean"]
                 then AttributeError else ValueError)
  | Some df => Ok df
  end.
Definition finish (name : string) (r : res (series xr)) (st : station) : station * option exn :=
  match r with Err x => (st, Some x) | Ok s => put_series name s st end.

(** station.py:181-203 *)
Definition st_wind (e : env) (q : sstats) (st : station) (method : string) (draw : nat -> xr) : station * option exn :=
  match (let* w := daily_col st "wind" in
         disaggregate_wind e w method (q_wind_a q) (q_wind_b q) (q_wind_shift q) draw) with
  | Err x => (st, Some x)
  | Ok (WSeries s, _) => put_series "wind" s st
  | Ok (WArray l, _) => put_array "wind" l st
  end.

(** station.py:205-247 *)
Definition st_humidity (e : env) (q : sstats) (st : station) (method : string) (keep : bool) : station * option exn :=
  finish "hum"
    (let* dd := daily_frame st in
     match s_disagg st with
     | None => Err AttributeError
     | Some d =>
         let* temp := fcol "temp" d in
         disaggregate_humidity e dd method (Some temp) (q_a0 q) (q_a1 q) (q_kr q) (q_mhp q) keep
     end) st.

(** station.py:249-303 *)
Definition st_temperature (e : env) (q : sstats) (st : station) (method min_max_time : string) (night : bool)
  : station * option exn :=
  finish "temp"
    (let* dd := daily_frame_temp st method in
     disaggregate_temperature e dd method min_max_time night (q_delta q) (q_tcourse q) (s_sun st)) st.

(** [s.loc[labels of new] = new]: KeyError when a label is not in the index *)
Definition overlay (old new : series xr) : res (series xr) :=
  if forallb (fun t => mem t (index old)) (index new)
  then Ok (map (fun p => (fst p, match lookup (fst p) new with Some v => v | None => snd p end)) old)
  else Err KeyError.
(** station.py:335-347, the loop over the seasons. [draws k] is the part of the random stream used by
    the k-th pair of months and statistics (numpy's stream is consumed consecutively; the theorems hold
    for every choice). disagg_prec returning None (precipitation.py:273-275) fails at [data.index]. *)
Fixpoint st_seasons (e : env) (precip : series xr) (uniform : bool) (shft : Z) (draws : nat -> nat -> xr) (k : nat)
         (seasons : list (option (list Z) * casc_arg xr)) (out : series xr) : res (series xr) :=
  match seasons with
  | [] => Ok out
  | (months, stats) :: r =>
      let* sub := seasonal_subset precip months in
      let* out :=
        if Nat.ltb 1 (length sub) then
          let* data := disagg_prec e (DSeries sub) MCascade (Some stats) [] uniform shft (draws k) 0 in
          match data with None => Err AttributeError | Some data => overlay out data end
        else Ok out in
      st_seasons e precip uniform shft draws (S k) r out
  end.
Definition st_cascade (e : env) (q : sstats) (st : station) (uniform : bool) (shft : Z) (draws : nat -> nat -> xr) : res (series xr) :=
  match s_disagg st with
  | None => Err AttributeError
  | Some d =>
      match q_months q, q_casc q with
      | Some months, Some stats =>
          match combine months stats with
          | [] => Ok (map (fun t => (t, NaN)) (f_index d))
          | seasons => let* precip := daily_col st "precip" in
                       st_seasons e precip uniform shft draws 0 seasons (map (fun t => (t, NaN)) (f_index d))
          end
      | _, _ => Err TypeError                                                (* zip(None, ...) *)
      end
  end.
(** station.py:305-354 *)
Definition st_precipitation (e : env) (q : sstats) (st : station) (method : string) (uniform : bool) (shft : Z)
           (master : option (series xr)) (draws : nat -> nat -> xr) : station * option exn :=
  finish "precip"
    (if String.eqb method "equal" then
       let precip := match daily_col st "precip" with Ok s => Some s | Err _ => None end in
       let* r := disagg_prec e (DFrame precip) MEqual None [] true shft (draws 0%nat) 0 in
       match r with Some s => Ok s | None => Err AttributeError end
     else if String.eqb method "cascade" then st_cascade e q st uniform shft draws
     else if String.eqb method "masterstation" then
       let* s := daily_col st "precip" in
       match master with
       | Some m => precip_master_station e s m uniform
       | None => Err (if has_iteritems e then TypeError else AttributeError)
       end
     else Err UnboundLocalError) st.

Definition glob_params (tbl : list (Z * (xr * xr))) : params :=
  PMonthly (map (fun p => (fst p, fst (snd p))) tbl) (map (fun p => (fst p, snd (snd p))) tbl).
(** station.py:356-401 *)
Definition st_radiation (e : env) (q : sstats) (st : station) (method : string) (pot : option (series xr)) : station * option exn :=
  let (st, err) := match s_sun st with None => calc_sun_times st | Some _ => (st, None) end in
  match err with
  | Some x => (st, Some x)
  | None =>
      finish "glob"
        (let* pot :=
           match pot with
           | Some p => Ok (Some p)
           | None =>
               if String.eqb method "mean_course" then Ok None else
               match s_disagg st with
               | None => Err AttributeError
               | Some d =>
                   match s_lon st, s_lat st, s_tz st with
                   | Some lon, Some lat, Some tz => Ok (Some (potential_radiation (f_index d) lon lat tz n0 n0 n0))
                   | _, _, _ => Err TypeError
                   end
               end
           end in
         let* dd := daily_frame st in
         disaggregate_radiation e dd (s_sun st) pot method (glob_params (g_angstroem (q_glob q)))
           (glob_params (g_bristcamp (q_glob q))) (g_course (q_glob q))) st
  end.

(** ** Statistics *)
Section Fits.
  (** scipy / numpy fitting routines *)
  Variable curve_fit : list row4 -> res (xr * xr).                 (* radiation.py:338-344 *)
  Variable minimize_bias : list row4 -> res (xr * xr).             (* radiation.py:272-280 *)
  Variable fit_cosine : list (xr * Z * xr) -> res (xr * xr * xr).  (* wind.py:91 *)
  Variable linregress : list (xr * xr) -> res (xr * xr).           (* util.linregress: slope, intercept *)
  Variable percentile : xr -> list xr -> res xr.                   (* np.percentile *)

  (** stationstatistics.py:67-73 *)
  Definition set_data (q : sstats) (v : pyval) : sstats * option exn :=
    match v with
    | VOther => (q, Some AssertionError)
    | VFrame f =>
        if negb (p_datetime f) then (q, Some AssertionError) else
        if negb (hour_resolution (f_index (p_data f))) then (q, Some AssertionError) else
        ({| q_lon := q_lon q; q_lat := q_lat q; q_tz := q_tz q; q_data := Some (p_data f);
            q_wind_a := q_wind_a q; q_wind_b := q_wind_b q; q_wind_shift := q_wind_shift q;
            q_months := q_months q; q_casc := q_casc q;
            q_a0 := q_a0 q; q_a1 := q_a1 q; q_kr := q_kr q; q_mhp := q_mhp q;
            q_delta := q_delta q; q_tcourse := q_tcourse q; q_glob := q_glob q |}, None)
    end.
  Definition data_frame (q : sstats) : res (dframe xr) :=
    match q_data q with None => Err AttributeError | Some d => Ok d end.

  Definition with_precip (q : sstats) d months casc :=
    {| q_lon := q_lon q; q_lat := q_lat q; q_tz := q_tz q; q_data := d;
       q_wind_a := q_wind_a q; q_wind_b := q_wind_b q; q_wind_shift := q_wind_shift q;
       q_months := months; q_casc := casc;
       q_a0 := q_a0 q; q_a1 := q_a1 q; q_kr := q_kr q; q_mhp := q_mhp q;
       q_delta := q_delta q; q_tcourse := q_tcourse q; q_glob := q_glob q |}.
  (** stationstatistics.py:75-94 with precipitation.py:661-664: precip.months is set before build_casc runs.
      Each season first selects its months (with no month at all: UnboundLocalError; without data:
      AttributeError), then fills in zeros in the record (without the column: KeyError). When build_casc
      raises later on, the zeros stay in the record. *)
  Definition season_arg (h : heap xr) (s : season_stats) : casc_arg xr :=
    match s with SOne o => COne (read_casc h o) | SList l => CList (map (read_casc h) l) end.
  Definition calc_precipitation_stats (q : sstats) (months : option (list (option (list Z)))) (avg : bool) (perc : xr)
    : sstats * option exn :=
    let ms := match months with None => [Some all_months] | Some l => l end in
    let q1 := with_precip q (q_data q) (Some ms) (q_casc q) in               (* 91 *)
    match ms with
    | [] => (with_precip q (q_data q) (Some ms) (Some []), None)
    | Some [] :: _ => (q1, Some UnboundLocalError)
    | _ :: _ =>
        match q_data q with None => (q1, Some AttributeError) | Some d =>
        match assoc "precip" (f_cols d) with None => (q1, Some KeyError) | Some v =>
        let obs := combine (f_index d) v in
        match build_casc (percentile perc) perc true 9 avg (Some ms) {| arrs := []; objs := [] |} obs with
        | Err x => (with_precip q (Some (put_column "precip" (values (fillna0 obs)) d)) (Some ms) (q_casc q), Some x)
        | Ok (h, obs, out) => (with_precip q (Some (put_column "precip" (values obs) d)) (Some ms) (Some (map (season_arg h) out)), None)
        end end end
    end.

  Definition with_wind (q : sstats) a b s :=
    {| q_lon := q_lon q; q_lat := q_lat q; q_tz := q_tz q; q_data := q_data q;
       q_wind_a := a; q_wind_b := b; q_wind_shift := s;
       q_months := q_months q; q_casc := q_casc q;
       q_a0 := q_a0 q; q_a1 := q_a1 q; q_kr := q_kr q; q_mhp := q_mhp q;
       q_delta := q_delta q; q_tcourse := q_tcourse q; q_glob := q_glob q |}.
  (** stationstatistics.py:96-101 *)
  Definition calc_wind_stats (q : sstats) : sstats * option exn :=
    match (let* d := data_frame q in let* w := fcol "wind" d in fit_cosine (cosine_rows w)) with
    | Err x => (q, Some x)
    | Ok (a, b, s) => (with_wind q (Some a) (Some b) (Some s), None)
    end.

  Definition with_hum (q : sstats) a0 a1 kr mhp :=
    {| q_lon := q_lon q; q_lat := q_lat q; q_tz := q_tz q; q_data := q_data q;
       q_wind_a := q_wind_a q; q_wind_b := q_wind_b q; q_wind_shift := q_wind_shift q;
       q_months := q_months q; q_casc := q_casc q;
       q_a0 := a0; q_a1 := a1; q_kr := kr; q_mhp := mhp;
       q_delta := q_delta q; q_tcourse := q_tcourse q; q_glob := q_glob q |}.
  (** stationstatistics.py:103-111: the regression coefficients are stored before the categorical
      means are computed; without data, [None[['temp', 'hum']]] at humidity.py:124 is a TypeError *)
  Definition calc_humidity_stats (q : sstats) : sstats * option exn :=
    match (let* d := match q_data q with None => Err TypeError | Some d => Ok d end in
           let* ps := dewpoint_pairs d in linregress ps) with
    | Err x => (q, Some x)
    | Ok (a1, a0) =>
        let q := with_hum q (Some a0) (Some a1) (Some 12) (q_mhp q) in
        match (let* d := data_frame q in calculate_month_hour_precip_mean d) with
        | Err x => (q, Some x)
        | Ok m => (with_hum q (q_a0 q) (q_a1 q) (q_kr q) (Some m), None)
        end
    end.

  Definition with_temp (q : sstats) delta course :=
    {| q_lon := q_lon q; q_lat := q_lat q; q_tz := q_tz q; q_data := q_data q;
       q_wind_a := q_wind_a q; q_wind_b := q_wind_b q; q_wind_shift := q_wind_shift q;
       q_months := q_months q; q_casc := q_casc q;
       q_a0 := q_a0 q; q_a1 := q_a1 q; q_kr := q_kr q; q_mhp := q_mhp q;
       q_delta := delta; q_tcourse := course; q_glob := q_glob q |}.
  (** stationstatistics.py:113-122 *)
  Definition calc_temperature_stats (q : sstats) : sstats * option exn :=
    match (let* d := data_frame q in
           let* t := fcol "temp" d in
           match q_lon q, q_lat q, q_tz q with
           | Some lon, Some lat, Some tz => Ok (get_shift_by_data t lon lat tz, mean_course t true)
           | _, _, _ => Err TypeError
           end) with
    | Err x => (q, Some x)
    | Ok (delta, course) => (with_temp q (Some delta) (Some course), None)
    end.

  Definition with_glob (q : sstats) g :=
    {| q_lon := q_lon q; q_lat := q_lat q; q_tz := q_tz q; q_data := q_data q;
       q_wind_a := q_wind_a q; q_wind_b := q_wind_b q; q_wind_shift := q_wind_shift q;
       q_months := q_months q; q_casc := q_casc q;
       q_a0 := q_a0 q; q_a1 := q_a1 q; q_kr := q_kr q; q_mhp := q_mhp q;
       q_delta := q_delta q; q_tcourse := q_tcourse q; q_glob := g |}.
  (** stationstatistics.py:124-192 on the object *)
  Definition st_radiation_stats (e : env) (q : sstats) (data_daily : option (dframe xr)) (day_length : option (series xr))
             (how : string) : sstats * option exn :=
    let (g, err) := calc_radiation_stats curve_fit minimize_bias e (q_data q) (q_lon q) (q_lat q) (q_tz q)
                      data_daily day_length how (q_glob q) in
    (with_glob q g, err).

  (** ** Operations of a program *)
  Inductive stat_op : Type :=
  | QData (v : pyval)
  | QPrecip (months : option (list (option (list Z)))) (avg : bool) (perc : xr)
  | QWind | QHum | QTemp
  | QRad (data_daily : option (dframe xr)) (day_length : option (series xr)) (how : string).
  Definition run_stat (e : env) (q : sstats) (o : stat_op) : sstats * option exn :=
    match o with
    | QData v => set_data q v
    | QPrecip m avg p => calc_precipitation_stats q m avg p
    | QWind => calc_wind_stats q
    | QHum => calc_humidity_stats q
    | QTemp => calc_temperature_stats q
    | QRad d l h => st_radiation_stats e q d l h
    end.

  (** calls on a station that do not touch its location or statistics object *)
  Inductive data_op : Type :=
  | DDaily (v : pyval)
  | DSun
  | DWind (method : string) (draw : nat -> xr)
  | DHum (method : string) (keep : bool)
  | DTemp (method min_max_time : string) (night : bool)
  | DPrecip (method : string) (uniform : bool) (shft : Z) (master : option (series xr)) (draws : nat -> nat -> xr)
  | DRad (method : string) (pot : option (series xr)).
  Definition run_data (e : env) (q : sstats) (st : station) (o : data_op) : station * option exn :=
    match o with
    | DDaily v => set_daily e st v
    | DSun => calc_sun_times st
    | DWind m d => st_wind e q st m d
    | DHum m k => st_humidity e q st m k
    | DTemp m t n => st_temperature e q st m t n
    | DPrecip m u s ms d => st_precipitation e q st m u s ms d
    | DRad m p => st_radiation e q st m p
    end.

  Inductive op : Type :=
  | NewStats (lon lat tz : option xr)
  | NewStation (lon lat tz : option xr) (daily : option pyval)
  | SetLon (i : nat) (v : option xr)
  | SetLat (i : nat) (v : option xr)
  | SetTz (i : nat) (v : option xr)
  | SetStats (i : nat) (r : option nat)          (* None: not a StationStatistics object *)
  | OnStats (r : nat) (o : stat_op)
  | OnData (i : nat) (o : data_op).

  Definition upd_station (w : world) (i : nat) (st : station) : world :=
    {| w_stats := w_stats w; w_stations := upd i st (w_stations w) |}.
  Definition upd_stats (w : world) (r : nat) (q : sstats) : world :=
    {| w_stats := upd r q (w_stats w); w_stations := w_stations w |}.
  Definition locate_stats (q : sstats) (lon lat tz : option xr) : sstats :=
    {| q_lon := lon; q_lat := lat; q_tz := tz; q_data := q_data q;
       q_wind_a := q_wind_a q; q_wind_b := q_wind_b q; q_wind_shift := q_wind_shift q;
       q_months := q_months q; q_casc := q_casc q;
       q_a0 := q_a0 q; q_a1 := q_a1 q; q_kr := q_kr q; q_mhp := q_mhp q;
       q_delta := q_delta q; q_tcourse := q_tcourse q; q_glob := q_glob q |}.
  Definition locate_station (st : station) (lon lat tz : option xr) : station :=
    {| s_lon := lon; s_lat := lat; s_tz := tz; s_stats := s_stats st;
       s_daily := s_daily st; s_disagg := s_disagg st; s_sun := s_sun st |}.
  Definition dummy_stats : sstats := new_stats None None None.
  Definition stats_of (w : world) (r : nat) : sstats := nth r (w_stats w) dummy_stats.

  (** station.py:116-119 (lon), 128-131 (lat), 143-146 (timezone): the station's attribute, then the
      attribute of its statistics object *)
  Definition set_lon (w : world) (i : nat) (v : option xr) : world :=
    match nth_error (w_stations w) i with
    | None => w
    | Some st =>
        let w := upd_station w i (locate_station st v (s_lat st) (s_tz st)) in
        let q := stats_of w (s_stats st) in
        upd_stats w (s_stats st) (locate_stats q v (q_lat q) (q_tz q))
    end.
  Definition set_lat (w : world) (i : nat) (v : option xr) : world :=
    match nth_error (w_stations w) i with
    | None => w
    | Some st =>
        let w := upd_station w i (locate_station st (s_lon st) v (s_tz st)) in
        let q := stats_of w (s_stats st) in
        upd_stats w (s_stats st) (locate_stats q (q_lon q) v (q_tz q))
    end.
  Definition set_tz (w : world) (i : nat) (v : option xr) : world :=
    match nth_error (w_stations w) i with
    | None => w
    | Some st =>
        let w := upd_station w i (locate_station st (s_lon st) (s_lat st) v) in
        let q := stats_of w (s_stats st) in
        upd_stats w (s_stats st) (locate_stats q (q_lon q) (q_lat q) v)
    end.
  (** station.py:156-162 (statistics) *)
  Definition set_stats (w : world) (i r : nat) : world :=
    match nth_error (w_stations w) i with
    | None => w
    | Some st =>
        let q := stats_of w r in
        let w := upd_stats w r (locate_stats q (s_lon st) (s_lat st) (s_tz st)) in
        upd_station w i {| s_lon := s_lon st; s_lat := s_lat st; s_tz := s_tz st; s_stats := r;
                           s_daily := s_daily st; s_disagg := s_disagg st; s_sun := s_sun st |}
    end.
  (** station.py:53-70 [__init__]; when the data_daily setter raises no object is created *)
  Definition new_station (e : env) (w : world) (lon lat tz : option xr) (daily : option pyval) : world * option exn :=
    let i := length (w_stations w) in
    let r := length (w_stats w) in
    let w1 := {| w_stats := w_stats w ++ [new_stats lon lat None];           (* 61 *)
                 w_stations := w_stations w ++
                   [{| s_lon := None; s_lat := None; s_tz := None; s_stats := r; s_daily := None; s_disagg := None; s_sun := None |}] |} in
    let w2 := set_tz (set_lat (set_lon (set_stats w1 i r) i lon) i lat) i tz in (* 61-66 *)
    match daily with
    | None => (w2, None)
    | Some v =>
        match nth_error (w_stations w2) i with
        | None => (w2, None)
        | Some st => match set_daily e st v with
                     | (st, None) => (upd_station w2 i st, None)
                     | (_, Some x) => (w, Some x)
                     end
        end
    end.

  (** one statement of a program; references to objects that do not exist do nothing *)
  Definition step (e : env) (w : world) (o : op) : world * option exn :=
    match o with
    | NewStats lon lat tz => ({| w_stats := w_stats w ++ [new_stats lon lat tz]; w_stations := w_stations w |}, None)
    | NewStation lon lat tz daily => new_station e w lon lat tz daily
    | SetLon i v => (set_lon w i v, None)
    | SetLat i v => (set_lat w i v, None)
    | SetTz i v => (set_tz w i v, None)
    | SetStats i None => (w, Some AssertionError)
    | SetStats i (Some r) => if Nat.ltb r (length (w_stats w)) then (set_stats w i r, None) else (w, None)
    | OnStats r o =>
        match nth_error (w_stats w) r with
        | None => (w, None)
        | Some q => let (q, err) := run_stat e q o in (upd_stats w r q, err)
        end
    | OnData i o =>
        match nth_error (w_stations w) i with
        | None => (w, None)
        | Some st => let (st, err) := run_data e (stats_of w (s_stats st)) st o in (upd_station w i st, err)
        end
    end.
  (** a program; exceptions are caught by the caller *)
  Definition run (e : env) (ops : list op) (w : world) : world :=
    fold_left (fun w o => fst (step e w o)) ops w.
  Definition empty_world : world := {| w_stats := []; w_stations := [] |}.
End Fits.
