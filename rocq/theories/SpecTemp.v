(** Vocabulary of the temperature properties. *)
From Coq Require Import String ZArith List Bool Reals.
From Verif Require Import Num Cal Frame UtilModel2 SpecBase SpecUtil.
Import ListNotations.
Open Scope Z_scope.

(** a daily frame for consecutive days with columns tmin, tmax and temp (and possibly others) *)
Definition temp_frame (d : dframe xr) (d0 : Z) (tmin tmax temp : list xr) : Prop :=
  f_index d = daily_index d0 (length temp) /\ length tmin = length temp /\ length tmax = length temp /\
  assoc "tmin" (f_cols d) = Some tmin /\ assoc "tmax" (f_cols d) = Some tmax /\ assoc "temp" (f_cols d) = Some temp.

(** the value of the following (preceding) day, the day's own at the end (start) of the record *)
Definition next_day (l : list xr) (i : nat) : xr := if Nat.eqb (S i) (length l) then nth i l NaN else nth (S i) l NaN.
Definition prev_day (l : list xr) (i : nat) : xr := match i with O => nth 0 l NaN | S j => nth j l NaN end.

(** k is r rounded to an integer, half to even *)
Definition rounds_to (r : R) (k : Z) : Prop :=
  (Rabs (r - IZR k) < 1 / 2)%R \/ (Rabs (r - IZR k) = 1 / 2 /\ Z.even k = true)%R.

(** times of minimum and maximum for the three options *)
Inductive located (rise noon delta : R) : string -> Z -> Z -> Prop :=
| located_fix : located rise noon delta "fix" 7 14
| located_sun a b : rounds_to rise a -> rounds_to noon b -> located rise noon delta "sun_loc" a (b + 2)
| located_shift a b : rounds_to rise a -> rounds_to (noon + delta) b -> a <= b ->
    located rise noon delta "sun_loc_shift" a b
| located_standard a b c : rounds_to rise a -> rounds_to (noon + delta) b -> b < a -> rounds_to noon c ->
    located rise noon delta "sun_loc_shift" a (c + 2).

(** a sun-times table for consecutive days: sunrise and noon are the given numbers, and every day
    is at least three hours long *)
Definition sun_days (st : list (Z * sun_row)) (d0 : Z) (rise noon : list R) : Prop :=
  map fst st = daily_index d0 (length rise) /\ length noon = length rise /\
  map (fun p => sunrise (snd p)) st = map Fin rise /\ map (fun p => sunnoon (snd p)) st = map Fin noon /\
  Forall (fun p => exists r, daylength (snd p) = Fin r /\ (3 <= r)%R) st.

(** monthly shifts: a number for every month *)
Definition shifts (md : list (Z * xr)) (delta : Z -> R) : Prop :=
  forall m, 1 <= m <= 12 -> entry_of m md = Some (Fin (delta m)).

Definition sine_method (m : string) : Prop := m = "sine_min_max"%string \/ m = "sine"%string.
(** a usable min_max_time option; the monthly shifts are only needed for 'sun_loc_shift' *)
Definition usable (mmt : string) (md : option (list (Z * xr))) (delta : Z -> R) : Prop :=
  mmt = "fix"%string \/ mmt = "sun_loc"%string \/
  (mmt = "sun_loc_shift"%string /\ exists m, md = Some m /\ shifts m delta).

(** minimum and maximum that apply to hour h of day i, given the times of minimum and maximum *)
Definition min_for (tmin : list xr) (i : nat) (mx : Z) (h : nat) : xr :=
  if Z.of_nat h <? mx then nth i tmin NaN else next_day tmin i.
Definition max_for (tmax : list xr) (i : nat) (mn : Z) (h : nat) : xr :=
  if Z.of_nat h <? mn then prev_day tmax i else nth i tmax NaN.

(** a column of a mean-course table: one number for each of the 24 hours *)
Definition hour_column (f : nat -> R) : list (Z * xr) := map (fun h => (Z.of_nat h, Fin (f h))) (seq 0 24).
(** the course has such a column for the month of every one of n days *)
Definition has_course (c : list (Z * list (Z * xr))) (d0 : Z) (n : nat) (f : Z -> nat -> R) : Prop :=
  forall i, (i < n)%nat -> entry_of (month_of_day (d0 + Z.of_nat i)) c = Some (hour_column (f (month_of_day (d0 + Z.of_nat i)))).

(** h is the first hour of a day at which the largest valid value occurs *)
Definition first_max_hour (g : nat -> xr) (h : nat) : Prop :=
  (h < 24)%nat /\ exists v, g h = Fin v /\
    (forall k w, (k < 24)%nat -> g k = Fin w -> (w <= v)%R) /\ (forall k w, (k < h)%nat -> g k = Fin w -> (w < v)%R).
(** the values of the 24 hours of day d *)
Definition day_values (f : Z -> xr) (d : Z) (h : nat) : xr := f (d * us_day + Z.of_nat h * us_hour).
