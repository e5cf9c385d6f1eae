(** Cosines of doubles, and the exact values of the diurnal courses. *)
From Coq Require Import String ZArith List Bool Reals Floats.
From Verif Require Import Cal Frame SpecBase SpecUtil F64.
Import ListNotations.

(** numpy's pi *)
Definition np_pi : float := 0x1.921fb54442d18p+1%float.
(** a cosine for doubles as every C library has one: values between -1 and 1, and an error of at most
    10^-15 for arguments of moderate size *)
Definition good_cosine (cosf : float -> float) : Prop :=
  forall x, PrimFloat.is_finite x = true -> (Rabs (fval x) <= 1000)%R ->
    PrimFloat.is_finite (cosf x) = true /\ (Rabs (fval (cosf x)) <= 1)%R /\
    (Rabs (fval (cosf x) - cos (fval x)) <= 1 / 10 ^ 15)%R.

(** the value of the following (preceding) day, the day's own at the end (start) of the record *)
Definition next_or_own {A} (d : A) (l : list A) (i : nat) : A := if Nat.eqb (S i) (length l) then nth i l d else nth (S i) l d.
Definition prev_or_own {A} (d : A) (l : list A) (i : nat) : A := nth (i - 1) l d.
(** minimum and maximum that apply to hour h of day i: the next day's minimum from the hour of the maximum
    on, the maximum of the day before up to the hour of the minimum *)
Definition low_for {A} (d : A) (tmin : list A) (i : nat) (mx : Z) (h : nat) : A :=
  if (mx <=? Z.of_nat h)%Z then next_or_own d tmin i else nth i tmin d.
Definition high_for {A} (d : A) (tmax : list A) (i : nat) (mn : Z) (h : nat) : A :=
  if (Z.of_nat h <? mn)%Z then prev_or_own d tmax i else nth i tmax d.

(** the angle at hour h: a full turn in 24 hours with the top at hour mx *)
Definition day_angle (mx h : Z) : R := (PI / 12 * IZR (h - mx))%R.
(** the night-time variant: half a turn from the hour of the maximum to the hour of the minimum of the next
    day, and between minimum and maximum a rise from 225 to 360 degrees *)
Definition split_angle (mn mx h : Z) : R :=
  (if (mx <=? h)%Z then IZR (h - mx) / IZR (mn + 24 - mx) * PI
   else if (mn <? h)%Z then 5 / 4 * PI + IZR (h - mn) / IZR (mx - mn) * (3 / 4 * PI)
   else IZR (h + 24 - mx) / IZR (mn + 24 - mx) * PI)%R.
(** the course between lo and hi at an angle *)
Definition course_between (lo hi angle : R) : R := ((lo + hi) / 2 + (hi - lo) / 2 * cos angle)%R.

(** [w] is the real number [r] up to 10^-13 of the size [B] *)
Definition nearly (B : R) (w : float) (r : R) : Prop :=
  PrimFloat.is_finite w = true /\ (Rabs (fval w - r) <= 1 / 10 ^ 13 * B + 1 / 10 ^ 300)%R.

(** at most 2^400 in absolute value *)
Definition modest (x : float) : Prop := ((-0x1p400 <=? x) && (x <=? 0x1p400))%float = true.
(** the wind angle at hour h *)
Definition wind_angle (h : nat) (shift : R) : R := (PI / 12 * (INR h - shift))%R.

(** a daily frame for consecutive days with columns tmin, tmax and temp (and possibly others) *)
Definition daily_temps {A} (d : dframe A) (d0 : Z) (tmin tmax temp : list A) : Prop :=
  temp <> [] /\ f_index d = daily_index d0 (List.length temp) /\ List.length tmin = List.length temp /\ List.length tmax = List.length temp /\
  assoc "tmin" (f_cols d) = Some tmin /\ assoc "tmax" (f_cols d) = Some tmax /\ assoc "temp" (f_cols d) = Some temp.
(** hours of minimum and maximum of plausible size *)
Definition plausible (mn mx : Z) : Prop := (Z.abs mn <= 30 /\ Z.abs mx <= 30)%Z.
