(** SMET files of any origin: numerals, blanks, and what a reader is expected to return. *)
From Coq Require Import String Ascii ZArith NArith Reals List DecimalString.
From Verif Require Import Num Cal SpecSmet.
Import ListNotations.
Open Scope string_scope.
Open Scope Z_scope.
Open Scope list_scope.

(** a number as text: sign, digits, and digits behind the point (none: no point) *)
Record numeral := { n_neg : bool; n_whole : Decimal.uint; n_frac : Decimal.uint }.
Definition numeral_text (n : numeral) : string :=
  ((if n_neg n then "-" else "") ++ NilZero.string_of_uint (n_whole n) ++
   match n_frac n with Decimal.Nil => "" | f => "." ++ NilZero.string_of_uint f end)%string.
Definition digits (d : Decimal.uint) : R := IZR (Z.of_N (N.of_uint d)).
Definition numeral_value (n : numeral) : R :=
  ((if n_neg n then -1 else 1) * (digits (n_whole n) + digits (n_frac n) / 10 ^ Decimal.nb_digits (n_frac n)))%R.
(** what a cell holds after reading: -999 is missing, everything else is multiplied *)
Definition cell_read (n mu : numeral) (y : xr) : Prop :=
  (numeral_value n = (-999)%R /\ y = NaN) \/
  (numeral_value n <> (-999)%R /\ y = Fin (numeral_value n * numeral_value mu)).

Definition blank (s : string) : Prop := Forall (fun c => c = " "%char \/ c = "009"%char) (chars s).
(** words with blanks between and around them *)
Inductive spaced : list string -> string -> Prop :=
| spaced_none b : blank b -> spaced [] b
| spaced_last b c b' : blank b -> blank b' -> spaced [c] (b ++ c ++ b')
| spaced_more b c b' cs l : blank b -> blank b' -> b' <> "" -> spaced cs l -> spaced (c :: cs) (b ++ c ++ b' ++ l).

(** YYYY-MM-DDThh:mm *)
Definition figure (n : Z) : string := String (ascii_of_N (Z.to_N (48 + n))) "".
Definition figures2 (n : Z) : string := (figure (n / 10) ++ figure (n mod 10))%string.
Definition iso_minute (t : Z) : string :=
  (figures2 (year_of t / 100) ++ figures2 (year_of t mod 100) ++ "-" ++ figures2 (month_of t) ++ "-" ++ figures2 (dom_of t)
   ++ "T" ++ figures2 (hour_of t) ++ ":" ++ figures2 (minute_of t))%string.

(** a row: the cells before the time stamp, the time, the cells behind it *)
Definition row := (list numeral * Z * list numeral)%type.
Definition row_time (r : row) : Z := snd (fst r).
Definition row_numbers (r : row) : list numeral := fst (fst r) ++ snd r.
Definition row_texts (r : row) : list string :=
  map numeral_text (fst (fst r)) ++ iso_minute (row_time r) :: map numeral_text (snd r).

Definition line (s : string) : string := (s ++ String "010"%char "")%string.
Definition file_text (pre : list string) (m : list (string * string)) (data : list string) : string :=
  String.concat "" (map line (pre ++ "[HEADER]" :: map (fun p => fst p ++ "=" ++ snd p)%string m ++ "[DATA]" :: data)).

(** the only entry for a key, and its text *)
Definition only_entry (m : list (string * string)) (k v : string) : Prop :=
  exists k', In (k', v) m /\ trimmed k' k /\ forall p, In p m -> trimmed (fst p) k -> p = (k', v).

(** a file with the columns [before], timestamp, [behind] *)
Record smet_file (pre : list string) (m : list (string * string)) (data : list string)
    (before behind : list string) (mults : list numeral) (rows : list row) : Prop := {
  sf_pre : Forall (fun l => single_line l /\ ~ trimmed l "[HEADER]" /\ ~ trimmed l "[DATA]") pre;
  sf_header : Forall (fun p => single_line (fst p) /\ single_line (snd p) /\ without "="%char (fst p)) m;
  sf_fields : exists v, only_entry m "fields" v /\ spaced (before ++ "timestamp" :: behind) v;
  sf_units : exists v, only_entry m "units_multiplier" v /\ spaced (map numeral_text mults) v;
  sf_words : Forall word (before ++ behind);
  sf_distinct : NoDup (before ++ "timestamp" :: behind);
  sf_rows : rows <> [];
  sf_data : Forall2 (fun r l => spaced (row_texts r) l) rows data;
  sf_years : Forall (fun r => four_digit_year (row_time r)) rows;
  sf_widths : Forall (fun r => length (fst (fst r)) = length before /\ length (snd r) = length behind) rows }.

(** the names under which columns are returned *)
Definition short_name (mode n : string) : string :=
  if string_dec mode "d" then
    if string_dec n "TA" then "tmean" else if string_dec n "TMAX" then "tmax" else if string_dec n "TMIN" then "tmin" else
    if string_dec n "PSUM" then "precip" else if string_dec n "ISWR" then "glob" else if string_dec n "RH" then "hum" else
    if string_dec n "VW" then "wind" else n
  else if string_dec mode "h" then
    if string_dec n "TA" then "temp" else if string_dec n "PSUM" then "precip" else if string_dec n "ISWR" then "glob" else
    if string_dec n "RH" then "hum" else if string_dec n "VW" then "wind" else n
  else n.
