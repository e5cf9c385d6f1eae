(** Model of the KNMI and DWD readers (data_io.py:107-225, 310-383).

    pandas.read_csv is not modelled: KNMI files are lists of records (numbers, NaN for empty cells), DWD files are lists of
    lines with an arbitrary function from lines to tables. The calendar rules come from CalProofs.v. *)
From Coq Require Import String Ascii ZArith List Bool.
From Verif Require Import Py Num Cal Series Frame JsonModel SmetModel CalProofs.
Import ListNotations.
Open Scope string_scope.
Open Scope Z_scope.
Open Scope list_scope.

Section Io.
  Context {T : Type} {N : Num T}.

  (** ** KNMI *)
  (** one line of an hourly file: the columns that are used *)
  Record knmi : Type := { k_date : string; k_hour : Z; k_T : T; k_RH : T; k_Q : T; k_U : T; k_FH : T; k_SQ : T }.

  (** [int(s)] for digits; anything else is taken as ValueError *)
  Definition int_of (s : string) : res Z := match uint_text s with Some n => Ok n | None => Err ValueError end.
  (** [datetime(y, m, d, h)]: the range checks of CPython's _check_date_fields and _check_time_fields *)
  Definition datetime (y m d h : Z) : res Z :=
    if (1 <=? y) && (y <=? 9999) && (1 <=? m) && (m <=? 12) && (1 <=? d) && (d <=? days_in_month y m) && (0 <=? h) && (h <=? 23)
    then Ok (midnight (day_of_civil y m d) + h * us_hour) else Err ValueError.
  (** data_io.py:323-326 and 333-334: the date parser and the shift by one hour *)
  Definition knmi_stamp (e : env) (r : knmi) : res Z :=
    guard (has_index_to_datetime e) AttributeError (      (* pd.datetime; read_csv may end in another exception, raised by its own second attempt to call the parser *)
    let* y := int_of (substring 0 4 (k_date r)) in
    let* m := int_of (substring 4 2 (k_date r)) in
    let* d := int_of (substring 6 2 (k_date r)) in
    let* t := datetime y m d (k_hour r - 1) in
    Ok (t + us_hour)).
  (** data_io.py:350-352 *)
  Definition no_negative (x : T) : T := if (x <? n0)%num then n0 else x.
  (** data_io.py:310-353 *)
  Definition read_knmi_file (e : env) (rs : list knmi) : res (dframe T) :=
    let* index := mapM (knmi_stamp e) rs in
    Ok {| f_index := index;
          f_cols := [("temp", map (fun r => (k_T r / n_ofZ 10 + lit 27315 2)%num) rs);
                     ("precip", map (fun r => no_negative (k_RH r / n_ofZ 10)%num) rs);
                     ("glob", map (fun r => (k_Q r * n_ofZ 10000 / n_ofZ 3600)%num) rs);
                     ("hum", map k_U rs);
                     ("wind", map (fun r => (k_FH r / n_ofZ 10)%num) rs);
                     ("ssd", map (fun r => (k_SQ r * n_ofZ 6)%num) rs)] |}.
  (** [pd.concat([ts, current])] of two frames with the same columns *)
  Definition concat2 (a b : dframe T) : dframe T :=
    {| f_index := f_index a ++ f_index b;
       f_cols := map (fun c => (fst c, snd c ++ match assoc (fst c) (f_cols b) with Some v => v | None => [] end)) (f_cols a) |}.
  (** data_io.py:356-383: files in the order glob.glob returns them *)
  Definition knmi_columns : list string := ["temp"; "precip"; "glob"; "hum"; "wind"; "ssd"].
  Fixpoint read_knmi_go (e : env) (ts : dframe T) (first : bool) (files : list (list knmi)) : res (dframe T) :=
    match files with
    | [] => Ok ts
    | f :: r => let* current := read_knmi_file e f in
                read_knmi_go e (if first then current else concat2 ts current) false r
    end.
  Definition read_knmi_dataset (e : env) (files : list (list knmi)) : res (dframe T) :=
    read_knmi_go e {| f_index := []; f_cols := map (fun n => (n, [])) knmi_columns |} true files.

  (** ** DWD *)
  (** data_io.py:127-136 *)
  Definition dwd_names : list (string * string) :=
    [("LUFTTEMPERATUR", "tmean"); ("LUFTTEMPERATUR_MINIMUM", "tmin"); ("LUFTTEMPERATUR_MAXIMUM", "tmax");
     ("NIEDERSCHLAGSHOEHE", "precip"); ("GLOBAL_KW_J", "glob"); ("REL_FEUCHTE", "hum");
     ("WINDGESCHWINDIGKEIT", "wind"); ("SONNENSCHEINDAUER", "sun_h")].
  (** data_io.py:138-150: rows of the metadata file; [None] is an empty cell, the flag says whether any of the
      remaining cells of the row is filled *)
  Record meta_row : Type := { mr_id : option string; mr_name : option string; mr_lat : option string; mr_lon : option string; mr_rest : bool }.
  Definition filled_cell {A} (o : option A) : bool := match o with Some _ => true | None => false end.
  Definition filled_row (r : meta_row) : bool :=
    filled_cell (mr_id r) || filled_cell (mr_name r) || filled_cell (mr_lat r) || filled_cell (mr_lon r) || mr_rest r.
  Definition dwd_header (rows : list meta_row) : res (list (string * option string)) :=
    match find filled_row (rev rows) with
    | None => Err KeyError
    | Some r => Ok [("Stations_id", mr_id r); ("Stationsname", mr_name r); ("Breite", mr_lat r); ("Laenge", mr_lon r)]
    end.
  Variable parse : string -> list string -> res (dframe T).      (* mode, lines: pandas.read_csv *)

  (** data_io.py:153-155: [skiprows=[num_lines - 1]] for every value of skip_last except None *)
  Definition kept_lines (skip_last : option bool) (lines : list string) : list string :=
    match skip_last with Some _ => removelast lines | None => lines end.
  Definition kelvin (name : string) (cols : list (string * list T)) : list (string * list T) :=
    map (fun c => if String.eqb (fst c) name then (fst c, map (fun x => (x + lit 27315 2)%num) (snd c)) else c) cols.
  (** data_io.py:189-207 *)
  Definition dwd_columns (cols : list (string * list T)) : list (string * list T) :=
    let cols := map (fun c => (strip (fst c), snd c)) cols in
    let cols := rename dwd_names cols in
    let cols := filter (fun c => existsb (String.eqb (fst c)) (map snd dwd_names)) cols in
    kelvin "temp" (kelvin "tmean" (kelvin "tmax" (kelvin "tmin" cols))).
  (** data_io.py:125-209 *)
  Definition read_single_dwd (rows : list meta_row) (mode : string) (skip_last : option bool) (lines : list string)
    : res (list (string * option string) * dframe T) :=
    let* header := dwd_header rows in
    if String.eqb mode "d" || String.eqb mode "h" then
      let* data := parse mode (kept_lines skip_last lines) in
      Ok (header, {| f_index := f_index data; f_cols := dwd_columns (f_cols data) |})
    else Err UnboundLocalError.
  (** [data.join(other, how='outer')], indices without repetition *)
  Definition zsort (l : list Z) : list Z := map fst (sort_index (map (fun t => (t, tt)) l)).
  Fixpoint zlist_eqb (a b : list Z) : bool :=
    match a, b with [], [] => true | x :: a, y :: b => (x =? y) && zlist_eqb a b | _, _ => false end.
  Definition on_index (index : list Z) (old : list Z) (v : list T) : list T :=
    map (fun t => match lookup t (combine old v) with Some x => x | None => n_nan end) index.
  Definition outer_join (a b : dframe T) : res (dframe T) :=
    if existsb (fun c => existsb (String.eqb (fst c)) (map fst (f_cols b))) (f_cols a) then Err ValueError
    else if zlist_eqb (f_index a) (f_index b) then Ok {| f_index := f_index a; f_cols := f_cols a ++ f_cols b |}
    else let index := zsort (union (f_index a) (f_index b)) in
         Ok {| f_index := index;
               f_cols := map (fun c => (fst c, on_index index (f_index a) (snd c))) (f_cols a)
                         ++ map (fun c => (fst c, on_index index (f_index b) (snd c))) (f_cols b) |}.
  (** data_io.py:211-225 for a list of files *)
  Fixpoint read_dwd_go (rows : list meta_row) (mode : string) (skip_last : option bool)
    (acc : option (list (string * option string) * dframe T)) (files : list (list string)) : res (list (string * option string) * dframe T) :=
    match files with
    | [] => match acc with Some r => Ok r | None => Err UnboundLocalError end
    | f :: r => let* cur := read_single_dwd rows mode skip_last f in
                let* acc := match acc with None => Ok cur | Some (_, d) => let* j := outer_join d (snd cur) in Ok (fst cur, j) end in
                read_dwd_go rows mode skip_last (Some acc) r
    end.
  Definition read_dwd_list rows mode skip_last files := read_dwd_go rows mode skip_last None files.
End Io.
Arguments knmi : clear implicits.
