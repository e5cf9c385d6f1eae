(** Vocabulary of property C118: what each disaggregation call needs, in the order in which a missing
    thing is noticed, with the exception raised when it is missing. *)
From Coq Require Import String ZArith List Bool Reals.
From Verif Require Import Py Num Cal Series Frame SpecBase SpecUtil.
Import ListNotations.
Open Scope Z_scope.

(** the first requirement that is not met *)
Fixpoint first_missing (l : list (bool * exn)) : option exn :=
  match l with [] => None | (ok, x) :: r => if ok then first_missing r else Some x end.
Definition given {A} (o : option A) : bool := match o with Some _ => true | None => false end.
Definition one_of (m : string) (l : list string) : bool := existsb (String.eqb m) l.
(** the daily table has the column *)
Definition has (d : dframe xr) (c : string) : bool := one_of c (map fst (f_cols d)).

(** wind *)
Definition wind_needs (d : dframe xr) (a b shift : option xr) (m : string) : list (bool * exn) :=
  [(has d "wind", AttributeError); (one_of m ["equal"; "cosine"; "random"]%string, AssertionError)] ++
  (if String.eqb m "cosine" then [(given a && given b && given shift, AssertionError)] else []).

(** an entry for (month, hour, wet) *)
Definition entry_for (k : Z * Z * bool) (l : list (Z * Z * bool * xr)) : bool :=
  existsb (fun p => match fst p, k with (m, h, w), (m', h', w') => (m =? m') && (h =? h') && Bool.eqb w w' end) l.
Definition wet (x : option xr) : bool := match x with Some (Fin r) => if Rlt_dec 0 r then true else false | Some PInf => true | _ => false end.
(** for all hours of all days *)
Definition classes_known (d : dframe xr) (d0 : Z) (n : nat) (l : list (Z * Z * bool * xr)) : bool :=
  forallb (fun i => forallb (fun h =>
      entry_for (month_of_day (d0 + Z.of_nat i), Z.of_nat h,
                 wet (match assoc "precip" (f_cols d) with Some v => nth_error v i | None => None end)) l) (seq 0 24)) (seq 0 n).
(** humidity *)
Definition hum_needs (d : dframe xr) (d0 : Z) (n : nat) (a0 a1 : option xr) (kr : option Z) (tbl : option (list (Z * Z * bool * xr)))
           (m : string) (keep : bool) : list (bool * exn) :=
  [(one_of m ["equal"; "minimal"; "dewpoint_regression"; "min_max"; "linear_dewpoint_variation"; "month_hour_precip_mean"]%string, AssertionError)] ++
  (if String.eqb m "equal" then [(has d "hum", AttributeError)]
   else if String.eqb m "minimal" then [(has d "tmin", AttributeError)]
   else if String.eqb m "dewpoint_regression" then [(given a0 && given a1, AssertionError); (has d "tmin", AttributeError)]
   else if String.eqb m "linear_dewpoint_variation" then
     [(given a0 && given a1, AssertionError); (has d "tmin", AttributeError);
      (match kr with Some k => (k =? 6) || (k =? 12) | None => false end, AssertionError)]
   else if String.eqb m "min_max" then
     [(has d "hum_min" && has d "hum_max", AssertionError); (has d "tmin" && has d "tmax", AttributeError)]
   else
     [(given tbl, AssertionError); (has d "precip", AttributeError);
      (match tbl with Some l => classes_known d d0 n l | None => false end, KeyError)]) ++
  (if keep then [(has d "hum", AttributeError)] else []).

(** a value of the course for all hours of all days *)
Definition course_known (d0 : Z) (n : nat) (c : list (Z * list (Z * xr))) : bool :=
  forallb (fun i => match entry_of (month_of_day (d0 + Z.of_nat i)) c with
                    | Some col => forallb (fun h => given (entry_of (Z.of_nat h) col)) (seq 0 24)
                    | None => false
                    end) (seq 0 n).
Definition months_known (d0 : Z) (n : nat) (l : list (Z * xr)) : bool :=
  forallb (fun i => given (entry_of (month_of_day (d0 + Z.of_nat i)) l)) (seq 0 n).
(** temperature *)
Definition temp_needs (d : dframe xr) (d0 : Z) (n : nat) (sun : bool) (delta : option (list (Z * xr))) (c : option (list (Z * list (Z * xr))))
           (m time : string) : list (bool * exn) :=
  let columns := (has d "tmin" && has d "tmax" && has d "temp", AttributeError) in
  [(one_of m ["sine"; "sine_min_max"; "sine_mean"; "mean_course_min_max"; "mean_course_mean"]%string, ValueError)] ++
  (if one_of m ["sine"; "sine_min_max"; "sine_mean"]%string then
     (if String.eqb time "fix" then []
      else if String.eqb time "sun_loc" then [(sun, AttributeError)]
      else if String.eqb time "sun_loc_shift" then
        [(sun, AttributeError); (given delta, TypeError); (match delta with Some l => months_known d0 n l | None => false end, KeyError)]
      else [(false, ValueError)]) ++ [columns; (sun, AttributeError)]
   else if String.eqb m "mean_course_min_max" then
     [(given c, AttributeError); (match c with Some l => course_known d0 n l | None => false end, KeyError); (has d "tmin" && has d "tmax", AttributeError)]
   else
     [(has d "tmin" && has d "tmax", AttributeError); (given c, AttributeError);
      (match c with Some l => course_known d0 n l | None => false end, KeyError); (has d "temp", AttributeError)]).

(** radiation, with the potential radiation computed from the location *)
Definition rad_needs (d : dframe xr) (d0 : Z) (n : nat) (sun place : bool) (c : option (list (Z * list (Z * xr)))) (m : string) : list (bool * exn) :=
  [(sun || place, TypeError)] ++
  (if String.eqb m "mean_course" then
     [(given c, AssertionError); (match c with Some l => course_known d0 n l | None => false end, KeyError); (has d "glob", AttributeError)]
   else
     [(place, TypeError); (one_of m ["pot_rad"; "pot_rad_via_ssd"; "pot_rad_via_bc"]%string, ValueError)] ++
     (if String.eqb m "pot_rad" then [(has d "glob", AttributeError)]
      else if String.eqb m "pot_rad_via_ssd" then [(has d "ssd", AttributeError)]
      else [(has d "tmin" && has d "tmax", AttributeError)])).

(** precipitation; [master]: hourly values of the master station were given *)
Definition prec_needs (d : dframe xr) (seasons stats : bool) (m : string) : list (bool * exn) :=
  [(one_of m ["equal"; "cascade"; "masterstation"]%string, UnboundLocalError)] ++
  (if String.eqb m "cascade" then [(seasons && stats, TypeError)] else []) ++ [(has d "precip", AttributeError)].

(** ** Statistics calls (property C119) *)
Definition has_in (o : option (dframe xr)) (c : string) : bool := match o with Some d => has d c | None => false end.
Definition located (lon lat tz : option xr) : bool := given lon && given lat && given tz.
(** precipitation: nothing is needed for an empty list of seasons *)
Definition casc_needs (record : option (dframe xr)) (seasons : list (option (list Z))) : list (bool * exn) :=
  match seasons with
  | [] => []
  | s :: _ => [(match s with Some [] => false | _ => true end, UnboundLocalError); (given record, AttributeError); (has_in record "precip", KeyError)]
  end.
Definition fit_wind_needs (record : option (dframe xr)) : list (bool * exn) :=
  [(given record, AttributeError); (has_in record "wind", AttributeError)].
Definition fit_temp_needs (record : option (dframe xr)) (lon lat tz : option xr) : list (bool * exn) :=
  [(given record, AttributeError); (has_in record "temp", AttributeError); (located lon lat tz, TypeError)].
(** before and after the regression *)
Definition fit_hum_needs (record : option (dframe xr)) : list (bool * exn) :=
  [(given record, TypeError); (has_in record "temp" && has_in record "hum", KeyError)].
Definition hum_table_needs (record : option (dframe xr)) : list (bool * exn) := [(has_in record "precip", AttributeError)].
Definition fit_rad_needs (record daily : option (dframe xr)) (lon lat tz : option xr) (how : string) : list (bool * exn) :=
  [(one_of how ["all"; "seasonal"; "monthly"]%string, AssertionError); (given record, AttributeError); (has_in record "glob", AttributeError)] ++
  (if given daily then [(located lon lat tz, TypeError)] else []).
