(** Hours of the extremes from sun times: what is asked of rounding, and which hours are right. *)
From Coq Require Import ZArith List Reals Floats.
From Verif Require Import Py Cal Series SpecUtil F64 SpecSunAny.
Open Scope R_scope.

(** rounding to a nearest whole number *)
Definition good_round (roundf : float -> float) : Prop :=
  forall x, PrimFloat.is_finite x = true -> Rabs (fval x) <= 1000 ->
    exists k, PrimFloat.is_finite (roundf x) = true /\ fval (roundf x) = IZR k /\ Rabs (IZR k - fval x) <= 1 / 2.
(** conversion of doubles that are whole numbers *)
Definition good_int (intf : float -> res Z) : Prop :=
  forall x k, PrimFloat.is_finite x = true -> fval x = IZR k -> (Z.abs k <= 2000)%Z -> intf x = Ok k.

(** [k] is the time [r] rounded to full hours, up to [e] *)
Definition full_hour (e : R) (k : Z) (r : R) : Prop := Rabs (IZR k - r) <= 1 / 2 + e.
(** the hour of the maximum: two hours after noon, or by a given shift after noon unless that were before
    the hour of the minimum *)
Definition top_hour (e : R) (noon : R) (shift : option R) (mn mx : Z) : Prop :=
  match shift with
  | None => full_hour e (mx - 2) noon
  | Some s => exists k, full_hour e k (noon + s) /\ ((mn <= k)%Z /\ mx = k \/ (k < mn)%Z /\ full_hour e (mx - 2) noon)
  end.

(** a day on which the sun rises after midnight, is up for three hours at least and highest before 21 o'clock *)
Definition ordinary_day (lon lat tz : R) (day : Z) : Prop :=
  let noon := noon_R (doy_of_day day) lon tz in
  let u := rise_cos (decl_R (doy_of_day day)) lat in
  Rabs u <= 0.999 /\ 3 + 1 / 10 ^ 8 <= 24 * (acos u / PI) /\ 1 / 10 ^ 8 <= noon - 12 * (acos u / PI) /\ noon <= 21.
(** exact sunrise of the day *)
Definition rise_time (lon lat tz : R) (day : Z) : R :=
  noon_R (doy_of_day day) lon tz - 12 * (acos (rise_cos (decl_R (doy_of_day day)) lat) / PI).
(** the shift of the day's month, if shifts are given *)
Definition shift_on (shifts : option (list (Z * float))) (day : Z) : option R :=
  match shifts with
  | None => None
  | Some l => option_map fval (lookup (month_of_day day) l)
  end.
(** if shifts are given, there is one for the day's month, of at most 8 hours and with the maximum before 23 o'clock *)
Definition shift_fits (shifts : option (list (Z * float))) (noon : R) (day : Z) : Prop :=
  match shifts with
  | None => True
  | Some l => exists s, lookup (month_of_day day) l = Some s /\ PrimFloat.is_finite s = true /\ Rabs (fval s) <= 8 /\ noon + fval s <= 23
  end.
