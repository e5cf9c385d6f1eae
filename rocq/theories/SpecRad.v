(** Vocabulary of the radiation properties. *)
From Coq Require Import String ZArith List Bool Reals Sorted.
From Verif Require Import Num Cal Series Frame SpecBase SpecUtil SpecTemp RadModel.
Import ListNotations.
Open Scope Z_scope.

(** a daily frame for n consecutive days *)
Definition day_frame (d : dframe xr) (d0 : Z) (n : nat) : Prop := n <> O /\ f_index d = daily_index d0 n.
(** it has a column with the given values *)
Definition has_column (d : dframe xr) (name : string) (l : list xr) : Prop :=
  assoc name (f_cols d) = Some l /\ length l = length (f_index d).

(** amounts below 0.01 are dropped *)
Definition cut_R (x : R) : R := if Rlt_dec x (1 / 100) then 0%R else x.
(** a potential course p scaled to the daily mean g *)
Definition scaled (p : list R) (g : R) : list R := map (fun x => cut_R (x / Rmean p * g)) p.

(** the two parameters for month m *)
Definition params_for (ps : params) (fa fb : Z -> xr) : Prop :=
  match ps with
  | PScalar a b => forall m, 1 <= m <= 12 -> fa m = a /\ fb m = b
  | PMonthly la lb => forall m, 1 <= m <= 12 -> entry_of m la = Some (fa m) /\ entry_of m lb = Some (fb m)
  end.

(** temperature difference of day i: maximum minus the mean of today's and tomorrow's minimum *)
Definition day_dT (tmin tmax : list xr) (i : nat) : option R :=
  match nth i tmin NaN, next_day tmin i, nth i tmax NaN with
  | Fin lo, Fin nx, Fin hi => Some (hi - (lo + nx) / 2)%R
  | _, _, _ => None
  end.
(** all differences known for days of month m *)
Definition month_dT (tmin tmax : list xr) (d0 : Z) (m : Z) : list R :=
  flat_map (fun i => if month_of_day (d0 + Z.of_nat i) =? m
                     then match day_dT tmin tmax i with Some x => [x] | None => [] end else [])
           (seq 0 (length tmin)).
(** Bristow and Campbell's transmissivity *)
Definition bc_R (A C avg dt : R) : R :=
  (A * (1 - exp (- (0.036 * exp (-0.154 * avg)) * (if Req_EM_T dt 0 then 0 else Rpower dt C))))%R.

(** sun position: declination and hour angle *)
Definition sun_decl (doy : Z) : R := (23.43697 * (PI / 180) * cos (2 * PI * (IZR doy - 173) / 365.25))%R.
Definition sun_hour_angle (hour minute : Z) (lon tz : R) : R :=
  (PI * ((IZR hour + IZR minute / 60 + (lon - tz * 15) / 15) / 12 - 1))%R.
(** sine of the sun's elevation = cosine of the zenith angle *)
Definition sun_height (doy hour minute : Z) (lon lat tz : R) : R :=
  (sin (sun_decl doy) * sin (lat * (PI / 180)) +
   cos (sun_decl doy) * cos (lat * (PI / 180)) * cos (sun_hour_angle hour minute lon tz))%R.

(** ratio of the squared mean to the squared actual distance of the sun *)
Definition sun_ratio (doy : Z) : R :=
  let b := (2 * PI * IZR doy / 365.25)%R in
  (1.00011 + 0.034221 * cos b + 0.00128 * sin b + 0.000719 * cos (2 * b) + 0.000077 * sin (2 * b))%R.
(** height of the sun above the horizon, 0 at night *)
Definition day_height (H : R) : R := Rmax 0 H.
(** azimuth of the sun as the code computes it *)
Definition sun_azimuth (doy hour minute : Z) (lon lat tz : R) : R :=
  asin (cos (sun_decl doy) * sin (sun_hour_angle hour minute lon tz) /
        sqrt (1 - (day_height (sun_height doy hour minute lon lat tz))²)).
(** cosine of the angle between the sun and the terrain normal *)
Definition incidence (slope az H mu : R) : R :=
  (cos slope * day_height H + sin slope * sqrt (1 - (day_height H)²) * cos (mu - az))%R.

(** rows with all four values known, for the labels whose month is one of [ms], in order of time *)
Definition complete_rows (ms : list Z) (a b c d : series xr) (rows : list (Z * (xr * xr * xr * xr))) : Prop :=
  StronglySorted Z.lt (map fst rows) /\
  forall t x y z w, In (t, (x, y, z, w)) rows <->
    (In (month_of t) ms /\ entry_of t a = Some x /\ entry_of t b = Some y /\ entry_of t c = Some z /\ entry_of t d = Some w /\
     x <> NaN /\ y <> NaN /\ z <> NaN /\ w <> NaN).
(** the groups of months that get a common parameter set *)
Definition month_groups (how : string) : list (list Z) :=
  if String.eqb how "all" then [[1; 2; 3; 4; 5; 6; 7; 8; 9; 10; 11; 12]]
  else if String.eqb how "seasonal" then [[3; 4; 5]; [6; 7; 8]; [9; 10; 11]; [12; 1; 2]]
  else [[1]; [2]; [3]; [4]; [5]; [6]; [7]; [8]; [9]; [10]; [11]; [12]].

(** q is the hourly course with the shape of p and the mean g, up to the cut-off at 0.01 *)
Definition shaped (p : list R) (g : R) (q : list R) : Prop :=
  length q = length p /\ (forall v, In v q -> (0 <= v)%R) /\
  (g - 1 / 100 < Rmean q <= g)%R /\
  ((forall x, In x p -> (x = 0 \/ 1 / 100 <= x / Rmean p * g)%R) -> Rmean q = g) /\
  (forall h, (h < length p)%nat ->
     let y := (nth h p 0 / Rmean p * g)%R in
     nth h q 0%R = (if Rlt_dec y (1 / 100) then 0 else y)%R).
