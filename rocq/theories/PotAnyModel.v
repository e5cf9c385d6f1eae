(** Potential radiation for any kind of number, with pi and the trigonometric functions left open. *)
From Coq Require Import ZArith List Bool.
From Verif Require Import Num Cal Series.
Import ListNotations.
Open Scope Z_scope.

Section Generic.
  Context {T : Type} {N : Num T}.
  Variable pi : T.
  Variables sinf cosf asinf acosf : T -> T.

  (** [np.deg2rad] *)
  Definition radians (x : T) : T := (x * (pi / n_ofZ 180))%num.
  (** radiation.py:169 and 196 [clip(min=0)]: NaN stays *)
  Definition no_less_than_0 (x : T) : T := if (x <? n0)%num then n0 else x.
  (** radiation.py:147-158 *)
  Definition decline_any (doy : Z) : T :=
    (radians (lit 2343697 5) * cosf (n_ofZ 2 * pi * (n_ofZ doy - n_ofZ 173) / lit 36525 2))%num.
  (** radiation.py:161-163 *)
  Definition hour_angle_any (hour minute : Z) (lon tz : T) : T :=
    let standard_meridian := (tz * n_ofZ 15)%num in
    let delta_lat_time := ((lon - standard_meridian) * n_ofZ 24 / n_ofZ 360)%num in
    (pi * (((n_ofZ hour + n_ofZ minute / n_ofZ 60 + delta_lat_time) / n_ofZ 12) - n1))%num.
  (** radiation.py:166-169: the cosine of the zenith angle, 0 at night *)
  Definition height_any (doy hour minute : Z) (lon lat tz : T) : T :=
    let decl := decline_any doy in
    no_less_than_0 (sinf decl * sinf (radians lat) + cosf decl * cosf (radians lat) * cosf (hour_angle_any hour minute lon tz))%num.
  (** radiation.py:177-184 *)
  Definition ratio_any (doy : Z) : T :=
    let beta := (n_ofZ 2 * pi * (n_ofZ doy / lit 36525 2))%num in
    (lit 100011 5 + lit 34221 6 * cosf beta + lit 128 5 * sinf beta
     + lit 719 6 * cosf (n_ofZ 2 * beta) + lit 77 6 * sinf (n_ofZ 2 * beta))%num.
  (** radiation.py:170 and 187: the cosine of the sun's azimuth less that of the slope *)
  Definition facing_any (doy hour minute : Z) (lon lat tz azimuth : T) : T :=
    let zenith := acosf (height_any doy hour minute lon lat tz) in
    let mu := asinf (cosf (decline_any doy) * sinf (hour_angle_any hour minute lon tz) / sinf zenith)%num in
    cosf (mu - azimuth)%num.
  (** radiation.py:145-196 [potential_radiation] for one time stamp: direct and diffuse part *)
  Definition pot_any (doy hour minute : Z) (lon lat tz slope azimuth cloud : T) : T * T :=
    let cosz := height_any doy hour minute lon lat tz in
    let t_direct := ((lit 6 1 + lit 2 1 * cosz) * (n1 - cloud))%num in
    let t_diffuse := ((lit 3 1 + lit 1 1 * cosz) * cloud)%num in
    let sc := (n_ofZ 1367 * ratio_any doy)%num in
    let cosi := (cosf slope * cosz + sinf slope * sinf (acosf cosz) * facing_any doy hour minute lon lat tz azimuth)%num in
    (no_less_than_0 (sc * t_direct * cosi)%num, (sc * t_diffuse * cosz)%num).
  (** radiation.py:104-204 [potential_radiation] *)
  Definition potential_any (dates : list Z) (lon lat tz slope azimuth cloud : T) : series T :=
    map (fun t => let p := pot_any (doy_of_day (date_of t)) (hour_of t) (minute_of t) lon lat tz slope azimuth cloud in
                  (t, (fst p + snd p)%num)) dates.
End Generic.
