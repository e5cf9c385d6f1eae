(** Sub-daily time indices with the argument fill_gaps. *)
From Coq Require Import ZArith List Bool.
From Verif Require Import Py Num Cal Series.
Import ListNotations.
Open Scope Z_scope.

(** precipitation.py:705-737 [sub_level_index(daily_index, level, fill_gaps)] for level 0..11 (the
    frequency is a whole number of microseconds then), and precipitation.py:740-767
    [fmin_index(daily_index, fill_gaps)]: the same text with another frequency and number of steps.
    The time stamps that are kept after removing days are rebuilt from year, month, day, hour, minute
    and second (pd.datetime, no longer available), without microseconds. *)
Definition step_index (e : env) (fill_gaps : bool) (daily : list Z) (freq : Z) (steps : nat) : res (list Z) :=
  match idx_min daily, idx_max daily with
  | Some a, Some b =>
      let idx := date_range a (replace_hms b 23 59 59) freq in
      if negb fill_gaps && Nat.ltb (length daily * steps) (length idx) then
        if has_index_to_datetime e then
          let dates := map date_of daily in
          Ok (map (fun t => midnight (date_of t) + hour_of t * us_hour
                            + minute_of t * us_minute + second_of t * us_second)
                  (filter (fun t => mem (date_of t) dates) idx))
        else Err AttributeError
      else Ok idx
  | _, _ => Err ValueError
  end.
Definition sub_level_index_gen (e : env) (fill_gaps : bool) (daily : list Z) (lvl : nat) : res (list Z) :=
  step_index e fill_gaps daily (42187500 * 2 ^ (11 - Z.of_nat lvl)) (2 ^ lvl).
Definition fmin_index_gen (e : env) (fill_gaps : bool) (daily : list Z) : res (list Z) :=
  step_index e fill_gaps daily (5 * us_minute) 288.
