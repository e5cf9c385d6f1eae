(** Vocabulary for the SMET properties, independent of the model's string functions. *)
From Coq Require Import String Ascii ZArith Reals List.
From Verif Require Import Num Cal Frame.
Import ListNotations.
Open Scope string_scope.
Open Scope Z_scope.
Open Scope list_scope.

Definition chars (s : string) : list ascii := list_ascii_of_string s.
(** white space as Python's str.isspace sees it *)
Definition white (c : ascii) : Prop := In (nat_of_ascii c) [9; 10; 11; 12; 13; 28; 29; 30; 31; 32; 133; 160]%nat.
Definition without (c : ascii) (s : string) : Prop := ~ In c (chars s).
(** one line, and no quotation marks (pandas would take them as quoting) *)
Definition single_line (s : string) : Prop :=
  without "010"%char s /\ without "013"%char s /\ without """"%char s.
(** a word: not empty, no white space, no '=' and no quotation mark *)
Definition word (s : string) : Prop :=
  s <> "" /\ (forall c, In c (chars s) -> ~ white c) /\ without "="%char s /\ without """"%char s.
(** [s'] is [s] without the white space around it *)
Definition trimmed (s s' : string) : Prop :=
  exists a b, chars s = a ++ chars s' ++ b /\ Forall white a /\ Forall white b /\
    (forall c, hd_error (chars s') = Some c -> ~ white c) /\ (forall c, hd_error (rev (chars s')) = Some c -> ~ white c).
(** [s'] is [s] up to its first '=' *)
Definition cut (s s' : string) : Prop :=
  without "="%char s' /\ (s = s' \/ exists r, s = (s' ++ "=" ++ r)%string).

(** the number read back for a number printed with two decimals (ties to even); -999.00 means missing *)
Definition two_decimals (r : R) (k : Z) : Prop :=
  (Rabs (IZR k / 100 - r) <= 1 / 200)%R /\ (Rabs (IZR k / 100 - r) = 1 / 200 -> Z.even k = true)%R.
Definition number_back (x y : xr) : Prop :=
  match x with
  | Fin r => exists k, two_decimals r k /\ y = (if k =? -99900 then NaN else Fin (IZR k / 100))
  | _ => y = x
  end.
(** a cell written with the marker [nodata] for missing values *)
Definition cell_back (nodata x y : xr) : Prop :=
  match x with NaN => number_back nodata y | _ => number_back x y end.

Definition whole_minute (t : Z) : Z := t - t mod 60000000.
Definition whole_day (t : Z) : Z := t - t mod 86400000000.

Definition four_digit_year (t : Z) : Prop := 1000 <= year_of t <= 9999.

(** columns that hold both infinities are left out when [check] is set *)
Definition is_pinf (x : xr) : bool := match x with PInf => true | _ => false end.
Definition is_ninf (x : xr) : bool := match x with NInf => true | _ => false end.
Definition written_cols (check : bool) (cols : list (string * list xr)) : list (string * list xr) :=
  filter (fun c => negb (check && existsb is_pinf (snd c) && existsb is_ninf (snd c))) cols.

(** metadata that can be written: a dictionary of one-line strings, keys without '=' and no second spelling of the
    two keys that are added *)
Record header_ok (m : list (string * string)) : Prop := {
  ho_keys : NoDup (map fst m);
  ho_lines : Forall (fun p => single_line (fst p) /\ single_line (snd p) /\ without "="%char (fst p)) m;
  ho_fields : forall p, In p m -> trimmed (fst p) "fields" -> fst p = "fields";
  ho_units : forall p, In p m -> trimmed (fst p) "units_multiplier" -> fst p = "units_multiplier" }.
(** a frame that can be written: at least one row, columns named by single words, none of the names in [taken] *)
Record frame_ok (taken : list string) (fr : dframe xr) : Prop := {
  fo_rows : f_index fr <> [];
  fo_years : Forall four_digit_year (f_index fr);
  fo_lengths : Forall (fun c => length (snd c) = length (f_index fr)) (f_cols fr);
  fo_words : Forall (fun c => word (fst c)) (f_cols fr);
  fo_distinct : NoDup (map fst (f_cols fr));
  fo_free : forall n, In n (map fst (f_cols fr)) -> ~ In n ("timestamp" :: taken) }.
(** what is read back for the columns [cols]; [name] says under which name *)
Definition columns_back (nodata : xr) (name : string -> string) (cols cols' : list (string * list xr)) : Prop :=
  Forall2 (fun c c' => fst c' = name (fst c) /\ Forall2 (cell_back nodata) (snd c) (snd c')) cols cols'.
Definition exchanged (n : string) : string :=
  if string_dec n "tmin" then "tmax" else if string_dec n "tmax" then "tmin" else n.
