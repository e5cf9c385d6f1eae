(** Sun times for any kind of number, with pi and the trigonometric functions left open. *)
From Coq Require Import ZArith List Bool.
From Verif Require Import Num Cal PotAnyModel.
Import ListNotations.
Open Scope Z_scope.

(** util.py:241-244: the four columns *)
Record sun_line (T : Type) : Type := { l_rise : T; l_noon : T; l_set : T; l_length : T }.
Arguments l_rise {T}. Arguments l_noon {T}. Arguments l_set {T}. Arguments l_length {T}.

Section Generic.
  Context {T : Type} {N : Num T}.
  Variable pi : T.
  Variables sinf cosf tanf acosf : T -> T.

  (** util.py:181-191 *)
  Definition declination_any (doy : Z) : T :=
    let a := radians pi ((n_ofZ 360 / lit 36525 2) * (n_ofZ doy - lit 79346 3))%num in
    radians pi (lit 3723 4 + lit 232567 4 * sinf a - lit 7580 4 * cosf a
                + lit 1149 4 * sinf (n_ofZ 2 * a) + lit 3656 4 * cosf (n_ofZ 2 * a)
                - lit 1712 4 * sinf (n_ofZ 3 * a) + lit 201 4 * cosf (n_ofZ 3 * a))%num.
  (** util.py:194-205 *)
  Definition eq_time_any (doy : Z) : T :=
    let a := (n_ofZ 2 * pi * n_ofZ (doy - 1) / n_ofZ 365)%num in
    (n_ofZ 12 / pi * (lit 75 6 + lit 1868 6 * cosf a - lit 32077 6 * sinf a
                      - lit 14615 6 * cosf (n_ofZ 2 * a) - lit 40849 6 * sinf (n_ofZ 2 * a)))%num.
  (** util.py:208-209 *)
  Definition delta_any (lon tz : T) : T := ((lon - tz * n_ofZ 15) * n_ofZ 24 / n_ofZ 360)%num.
  (** util.py:211 *)
  Definition sun_arg (doy : Z) (lat : T) : T := (- tanf (radians pi lat) * tanf (declination_any doy))%num.
  (** util.py:212-233: sunrise, noon and sunset before the adjustment to 0..24 *)
  Definition raw_any (doy : Z) (lon lat tz : T) : T * T * T :=
    let eq := eq_time_any doy in
    let delta := delta_any lon tz in
    let arg := sun_arg doy lat in
    let omega := acosf arg in
    let rise := (n_ofZ 12 * (n1 - omega / pi) - delta - eq)%num in
    let set := (n_ofZ 12 * (n1 + omega / pi) - delta - eq)%num in
    let noon := (n_ofZ 12 * n1 - delta - eq)%num in
    let (rise, set) := if (arg <? n_ofZ (-1))%num then ((noon - n_ofZ 12)%num, (noon + n_ofZ 12)%num) else (rise, set) in
    let (rise, set) := if (arg >? n1)%num then (noon, noon) else (rise, set) in
    (rise, noon, set).
  (** util.py:160-246 [get_sun_times] for one date with day of year [doy] *)
  Definition sun_any (doy : Z) (lon lat tz : T) : sun_line T :=
    let '(rise, noon, set) := raw_any doy lon lat tz in
    {| l_rise := if (rise <? n0)%num then (rise + n_ofZ 24)%num else rise;
       l_noon := noon;
       l_set := if (set >? n_ofZ 24)%num then (set - n_ofZ 24)%num else set;
       l_length := (set - rise)%num |}.
  Definition sun_times_any (dates : list Z) (lon lat tz : T) : list (Z * sun_line T) :=
    map (fun t => (t, sun_any (doy_of_day (date_of t)) lon lat tz)) dates.
End Generic.
