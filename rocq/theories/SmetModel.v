(** Model of read_smet and write_smet (data_io.py:27-104, 228-307): file contents are strings.

    Library behaviour used here (not melodist code): str.strip/str.split/str.join/str.format, text files opened
    with universal newlines, DataFrame.to_string(header=False, index=False) as cells separated by at least one
    blank with arbitrary extra padding, pandas.read_table(sep='\s+') as the inverse tokenizer.  Numbers are exact:
    a printed decimal is read back as that decimal. *)
From Coq Require Import String Ascii ZArith NArith Reals List Bool DecimalString.
From Flocq Require Import Core.
From Verif Require Import Py Num Cal Series Frame.
Import ListNotations.
Open Scope string_scope.
Open Scope Z_scope.
Open Scope list_scope.

(** ** Strings *)
Definition LF : ascii := "010"%char.
Definition CR : ascii := "013"%char.
(** str.isspace for code points below 256 *)
Definition is_space (c : ascii) : bool :=
  let n := Z.of_N (N_of_ascii c) in
  ((9 <=? n) && (n <=? 13)) || ((28 <=? n) && (n <=? 32)) || (n =? 133) || (n =? 160).
Fixpoint lstrip (s : string) : string :=
  match s with String c r => if is_space c then lstrip r else s | EmptyString => EmptyString end.
Fixpoint rstrip (s : string) : string :=
  match s with
  | EmptyString => EmptyString
  | String c r => match rstrip r with
                  | EmptyString => if is_space c then EmptyString else String c EmptyString
                  | r' => String c r'
                  end
  end.
Definition strip (s : string) : string := rstrip (lstrip s).
(** [s.split(c)[0]], and what follows the first [c] *)
Fixpoint until (c : ascii) (s : string) : string :=
  match s with
  | EmptyString => EmptyString
  | String d r => if Ascii.eqb d c then EmptyString else String d (until c r)
  end.
Fixpoint after (c : ascii) (s : string) : option string :=
  match s with
  | EmptyString => None
  | String d r => if Ascii.eqb d c then Some r else after c r
  end.
(** [s.split()] for the separators [sp] *)
Definition push (w : string) (ws : list string) : list string := match w with EmptyString => ws | _ => w :: ws end.
Fixpoint words_go (sp : ascii -> bool) (s : string) : string * list string :=
  match s with
  | EmptyString => (EmptyString, [])
  | String c r => let '(w, ws) := words_go sp r in
                  if sp c then (EmptyString, push w ws) else (String c w, ws)
  end.
Definition words (sp : ascii -> bool) (s : string) : list string := let '(w, ws) := words_go sp s in push w ws.
(** the lines of a text file, universal newlines *)
Fixpoint pieces (s : string) : string * list string :=
  match s with
  | EmptyString => (EmptyString, [])
  | String c r =>
      if Ascii.eqb c LF then (EmptyString, let '(l, ls) := pieces r in l :: ls)
      else if Ascii.eqb c CR then
        match r with
        | String d r' => if Ascii.eqb d LF then (EmptyString, let '(l, ls) := pieces r' in l :: ls)
                         else (EmptyString, let '(l, ls) := pieces r in l :: ls)
        | EmptyString => (EmptyString, [EmptyString])
        end
      else let '(l, ls) := pieces r in (String c l, ls)
  end.
Fixpoint drop_last_empty (l : list string) : list string :=
  match l with
  | [] => []
  | a :: r => match r with [] => match a with EmptyString => [] | _ => [a] end | _ => a :: drop_last_empty r end
  end.
Definition lines (s : string) : list string := let '(l, ls) := pieces s in drop_last_empty (l :: ls).
Definition nl (s : string) : string := (s ++ String LF EmptyString)%string.
Fixpoint spaces (n : nat) : string := match n with O => EmptyString | S n => String " "%char (spaces n) end.

(** dictionaries in insertion order: [d[k] = v] *)
Fixpoint dset {A} (k : string) (v : A) (d : list (string * A)) : list (string * A) :=
  match d with
  | [] => [(k, v)]
  | (k', v') :: r => if String.eqb k' k then (k, v) :: r else (k', v') :: dset k v r
  end.
Fixpoint has_dup_str (l : list string) : bool :=
  match l with [] => false | a :: r => existsb (String.eqb a) r || has_dup_str r end.

(** ** Numbers and time stamps as text *)
Definition digit (n : Z) : ascii := ascii_of_N (Z.to_N (48 + n)).
Definition two (n : Z) : string := String (digit (n / 10)) (String (digit (n mod 10)) EmptyString).
(** ['{:.2f}'.format(x)]: nearest number of hundredths, ties to even *)
Definition fmt2 (x : xr) : string :=
  match x with
  | Fin r => let n := ZnearestE (Rabs r * 100) in
             ((if Rltb r 0 then "-" else "") ++ NilZero.string_of_uint (N.to_uint (Z.to_N (n / 100))) ++ "." ++ two (n mod 100))%string
  | PInf => "inf"
  | NInf => "-inf"
  | NaN => "NaN"
  end.
(** ['%Y-%m-%d'] for years 1000 to 9999 and the two time formats of data_io.py:275-278 *)
Definition date_text (t : Z) : string :=
  (two (year_of t / 100) ++ two (year_of t mod 100) ++ "-" ++ two (month_of t) ++ "-" ++ two (dom_of t))%string.
Definition time_format (mode : string) : option (Z -> string) :=
  if String.eqb mode "d" then Some (fun t => (date_text t ++ "T00:00")%string)
  else if String.eqb mode "h" then Some (fun t => (date_text t ++ "T" ++ two (hour_of t) ++ ":" ++ two (minute_of t))%string)
  else None.

(** reading: unsigned decimals, signs, inf, NaN; [None] is text that is no number of this kind *)
Definition uint_text (s : string) : option Z := option_map (fun u => Z.of_N (N.of_uint u)) (NilZero.uint_of_string s).
Definition unsigned (s : string) : option xr :=
  if String.eqb s "inf" then Some PInf else
  match after "."%char s with
  | None => match uint_text s with Some n => Some (Fin (IZR n)) | None => None end
  | Some f => match uint_text (until "."%char s), uint_text f with
              | Some n, Some m => Some (Fin (IZR (n * 10 ^ Z.of_nat (String.length f) + m) / IZR (10 ^ Z.of_nat (String.length f))))
              | _, _ => None
              end
  end.
Definition number (s : string) : option xr :=
  match s with
  | String "-" r => option_map xopp (unsigned r)
  | _ => if String.eqb s "NaN" then Some NaN else unsigned s
  end.
Definition num2 (a b : ascii) : option Z := uint_text (String a (String b EmptyString)).
Definition stamp (s : string) : option Z :=
  match s with
  | String y1 (String y2 (String y3 (String y4 (String "-" (String m1 (String m2 (String "-" (String d1 (String d2
      (String "T" (String h1 (String h2 (String ":" (String i1 (String i2 EmptyString))))))))))))))) =>
      match num2 y1 y2, num2 y3 y4, num2 m1 m2, num2 d1 d2, num2 h1 h2, num2 i1 i2 with
      | Some y, Some y', Some m, Some d, Some h, Some i =>
          if (1 <=? m) && (m <=? 12) && (1 <=? d) && (d <=? 31) && (h <=? 23) && (i <=? 59)
          then Some (midnight (day_of_civil (100 * y + y') m d) + h * us_hour + i * us_minute) else None
      | _, _, _, _, _, _ => None
      end
  | _ => None
  end.

(** ** Dictionaries of column names: data_io.py:48-59 and 245-256 *)
Definition read_d : list (string * string) :=
  [("TA", "tmean"); ("TMAX", "tmax"); ("TMIN", "tmin"); ("PSUM", "precip"); ("ISWR", "glob"); ("RH", "hum"); ("VW", "wind")].
Definition read_h : list (string * string) :=
  [("TA", "temp"); ("PSUM", "precip"); ("ISWR", "glob"); ("RH", "hum"); ("VW", "wind")].
Definition write_d : list (string * string) :=
  [("tmean", "TA"); ("tmin", "TMAX"); ("tmax", "TMIN"); ("precip", "PSUM"); ("glob", "ISWR"); ("hum", "RH"); ("wind", "VW")].
Definition write_h : list (string * string) :=
  [("temp", "TA"); ("precip", "PSUM"); ("glob", "ISWR"); ("hum", "RH"); ("wind", "VW")].
(** [df.rename(columns=dict)] *)
Definition rename_name (dict : list (string * string)) (n : string) : string :=
  match assoc n dict with Some n' => n' | None => n end.
Definition rename {A} (dict : list (string * string)) (cols : list (string * A)) : list (string * A) :=
  map (fun c => (rename_name dict (fst c), snd c)) cols.
(** data_io.py:98-102 and 258-262 *)
Definition by_mode {A} (mode : string) (d h : list (string * string)) (cols : list (string * A)) : list (string * A) :=
  if String.eqb mode "d" then rename d cols else if String.eqb mode "h" then rename h cols else cols.

(** ** write_smet, data_io.py:228-307 *)
(** [df.sum()] of a column: missing values are left out *)
Definition col_sum (l : list xr) : xr := fold_left xadd (filter (fun x => negb (xisnan x)) l) (Fin 0).
(** data_io.py:264-270: columns whose sum is NaN are dropped *)
Definition drop_nan (cols : list (string * list xr)) : list (string * list xr) :=
  filter (fun c => negb (xisnan (col_sum (snd c)))) cols.

(** a column of the frame that is printed *)
Inductive column := CText (l : list string) | CNum (l : list xr).
Definition cell_text (nodata : xr) (c : column) (i : nat) : string :=
  match c with
  | CText l => nth i l EmptyString
  | CNum l => let x := nth i l NaN in fmt2 (if xisnan x then nodata else x)     (* fillna, data_io.py:301 *)
  end.
(** one row of to_string: right-justified cells, at least one blank between two cells *)
Fixpoint row_text (pad : nat -> nat) (j : nat) (cells : list string) : string :=
  match cells with
  | [] => EmptyString
  | c :: r => (spaces (pad j) ++ c ++ match r with [] => EmptyString | _ => " " ++ row_text pad (S j) r end)%string
  end.
(** DataFrame.to_string of a frame without rows *)
Definition empty_text (names : list string) : string :=
  ("Empty DataFrame" ++ String LF "Columns: [" ++ String.concat ", " names ++ "]" ++ String LF "Index: []")%string.
Definition data_text (pad : nat -> nat -> nat) (nodata : xr) (n : nat) (cols : list (string * column)) : string :=
  match n with
  | O => empty_text (map fst cols)
  | _ => String.concat (String LF EmptyString)
           (map (fun i => row_text (pad i) 0 (map (fun c => cell_text nodata (snd c) i) cols)) (seq 0 n))
  end.
(** [cols[-1:] + cols[:-1]], data_io.py:282-284 *)
Definition last_first {A} (l : list A) : list A := match rev l with [] => [] | a :: r => a :: rev r end.
Fixpoint repeat_text (s : string) (n : nat) : string := match n with O => EmptyString | S n => (s ++ repeat_text s n)%string end.

Definition meta := list (string * string).
(** what a call leaves behind: the file, the caller's metadata dictionary and the caller's frame *)
Record wout := { w_file : string; w_meta : meta; w_frame : dframe xr }.

Definition header_text (m : meta) : string :=
  (nl "SMET 1.1 ASCII" ++ nl "[HEADER]" ++ String.concat EmptyString (map (fun p => nl (fst p ++ " = " ++ snd p)) m))%string.

Definition write_smet (pad : nat -> nat -> nat) (fr : dframe xr) (m : meta) (nodata : xr) (mode : string) (check_nan : bool)
  : wout * res unit :=
  let cols := by_mode mode write_d write_h (f_cols fr) in
  let cols := if check_nan then drop_nan cols else cols in
  match time_format mode, f_index fr with
  (* the file is open for writing (truncated) when the unset format is used, data_io.py:272-280 *)
  | None, _ :: _ => ({| w_file := EmptyString; w_meta := m; w_frame := fr |}, Err UnboundLocalError)
  | f, index =>
      let stamps := match f with Some f => map f index | None => [] end in
      (* without renaming and dropping [data] still is the caller's frame *)
      let fr' := match f, check_nan with None, false => {| f_index := index; f_cols := dset "timestamp" [] (f_cols fr) |} | _, _ => fr end in
      let all := last_first (dset "timestamp" (CText stamps) (map (fun c => (fst c, CNum (snd c))) cols)) in
      let fields := String.concat " " (map fst all) in
      let m := dset "fields" fields m in
      let m := dset "units_multiplier" (repeat_text "1 " (List.length (words is_space fields))) m in
      ({| w_file := (header_text m ++ nl "[DATA]" ++ data_text pad nodata (List.length index) all)%string; w_meta := m; w_frame := fr' |}, Ok tt)
  end.

(** ** read_smet, data_io.py:27-104 *)
(** lines 66-78: the header, and the lines behind [DATA] ([None]: no such line) *)
Fixpoint read_header (in_header : bool) (h : meta) (ls : list string) : res (meta * option (list string)) :=
  match ls with
  | [] => Ok (h, None)
  | l :: r =>
      if String.eqb (strip l) "[HEADER]" then read_header true h r
      else if String.eqb (strip l) "[DATA]" then Ok (h, Some r)
      else if in_header then
        match after "="%char l with
        | None => Err IndexError
        | Some v => read_header in_header (dset (strip (until "="%char l)) (strip (until "="%char v)) h) r
        end
      else read_header in_header h r
  end.

(** separators of read_table's tokenizer *)
Definition is_blank (c : ascii) : bool := Ascii.eqb c " "%char || Ascii.eqb c "009"%char.
Fixpoint all_some {A} (l : list (option A)) : option (list A) :=
  match l with
  | [] => Some []
  | Some a :: r => match all_some r with Some r => Some (a :: r) | None => None end
  | None :: _ => None
  end.
(** na_values=[-999]: by value *)
Definition cell (s : string) : option xr :=
  match number s with
  | Some (Fin r) => Some (if Reqb r (-999) then NaN else Fin r)
  | o => o
  end.
(** position of the time stamp column *)
Fixpoint position (n : string) (l : list string) : option nat :=
  match l with [] => None | a :: r => if String.eqb a n then Some O else option_map S (position n r) end.
Definition delete_at {A} (j : nat) (l : list A) : list A := firstn j l ++ skipn (S j) l.
(** rows with one token per column; [None]: a table outside the model *)
Definition read_rows (j width : nat) (ls : list string) : option (list (Z * list xr)) :=
  all_some (map (fun ts =>
    if (List.length ts =? width)%nat then
      match stamp (nth j ts EmptyString), all_some (map cell (delete_at j ts)) with
      | Some t, Some xs => Some (t, xs)
      | _, _ => None
      end
    else None) (filter (fun ts => match ts with [] => false | _ => true end) (map (words is_blank) ls))).

Definition read_smet (e : env) (mode : string) (file : string) : option (res (meta * dframe xr)) :=
  let ls := lines file in
  match read_header false [] ls with
  | Err x => Some (Err x)
  | Ok (h, rest) =>
      match assoc "fields" h, assoc "units_multiplier" h with
      | None, _ | _, None => Some (Err KeyError)
      | Some fields, Some um =>
          let columns := words is_space fields in
          match all_some (map number (words is_space um)) with
          | None => None
          | Some ms =>
              let mult := tl ms in
              if has_dup_str columns then Some (Err ValueError) else
              match position "timestamp" columns with
              | None => Some (Err ValueError)
              | Some j =>
                  match read_rows j (List.length columns) (match rest with Some r => r | None => ls end) with
                  | None | Some [] => None
                  | Some rows =>
                      let names := delete_at j columns in
                      if negb (List.length names =? List.length mult)%nat then Some (Err ValueError) else
                      if negb (has_del_index_name e) then Some (Err AttributeError) else
                      let cols := map (fun i => (nth i names EmptyString,
                                                 map (fun row => xmul (nth i (snd row) NaN) (nth i mult NaN)) rows)) (seq 0 (List.length names)) in
                      Some (Ok (h, {| f_index := map fst rows; f_cols := by_mode mode read_d read_h cols |}))
                  end
              end
          end
      end
  end.
