(** Vocabulary for the properties of the KNMI and DWD readers, independent of their models. *)
From Coq Require Import String Ascii ZArith Reals List.
From Verif Require Import Num Cal Frame SpecSmet.
Import ListNotations.
Open Scope string_scope.
Open Scope Z_scope.
Open Scope list_scope.

(** ** Digits *)
Definition code (c : ascii) : Z := Z.of_nat (nat_of_ascii c).
Definition decimal (s : string) (n : Z) : Prop :=
  Forall (fun c => 48 <= code c <= 57) (chars s) /\ n = fold_left (fun v c => 10 * v + (code c - 48)) (chars s) 0.
(** the text YYYYMMDD *)
Definition yyyymmdd (s : string) (y m d : Z) : Prop :=
  exists a b c, s = (a ++ b ++ c)%string /\ String.length a = 4%nat /\ String.length b = 2%nat /\ String.length c = 2%nat /\
    decimal a y /\ decimal b m /\ decimal c d.
(** day number [n] is the date y-m-d *)
Definition is_date (n y m d : Z) : Prop := year_of_day n = y /\ month_of_day n = m /\ dom_of_day n = d.

(** ** Readings: numbers or missing *)
Definition reading (x : xr) : Prop := match x with Fin _ | NaN => True | _ => False end.
Definition scaled (f : R -> R) (x y : xr) : Prop := match x with Fin r => y = Fin (f r) | _ => y = NaN end.

(** ** DWD columns *)
(** the name of a column after reading, if it is kept *)
Definition kept_as (name : string) (new : string) : Prop :=
  exists n, trimmed name n /\
    ((n, new) = ("LUFTTEMPERATUR", "tmean") \/ (n, new) = ("LUFTTEMPERATUR_MINIMUM", "tmin") \/ (n, new) = ("LUFTTEMPERATUR_MAXIMUM", "tmax") \/
     (n, new) = ("NIEDERSCHLAGSHOEHE", "precip") \/ (n, new) = ("GLOBAL_KW_J", "glob") \/ (n, new) = ("REL_FEUCHTE", "hum") \/
     (n, new) = ("WINDGESCHWINDIGKEIT", "wind") \/ (n, new) = ("SONNENSCHEINDAUER", "sun_h") \/
     (n = new /\ In n ["tmean"; "tmin"; "tmax"; "precip"; "glob"; "hum"; "wind"; "sun_h"])).
Inductive dwd_cols {T} (celsius : T -> T) : list (string * list T) -> list (string * list T) -> Prop :=
| dc_nil : dwd_cols celsius [] []
| dc_drop n v r r' : (forall new, ~ kept_as n new) -> dwd_cols celsius r r' -> dwd_cols celsius ((n, v) :: r) r'
| dc_temp n new v r r' : kept_as n new -> In new ["tmean"; "tmin"; "tmax"] -> dwd_cols celsius r r' ->
    dwd_cols celsius ((n, v) :: r) ((new, map celsius v) :: r')
| dc_keep n new v r r' : kept_as n new -> ~ In new ["tmean"; "tmin"; "tmax"] -> dwd_cols celsius r r' ->
    dwd_cols celsius ((n, v) :: r) ((new, v) :: r').

(** ** Values at a time *)
Definition at_time {T} (fr : dframe T) (v : list T) (t : Z) (x : T) : Prop := In (t, x) (combine (f_index fr) v).
Definition shaped {T} (fr : dframe T) : Prop := Forall (fun c => length (snd c) = length (f_index fr)) (f_cols fr).
