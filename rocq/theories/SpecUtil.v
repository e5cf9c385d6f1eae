(** Vocabulary of the util properties. *)
From Coq Require Import ZArith List Bool Reals.
From Verif Require Import Num Cal UtilModel2 SpecBase.
Import ListNotations.
Open Scope Z_scope.

(** number of consecutive pairs whose distance is not [step] *)
Fixpoint irregular (step : Z) (idx : list Z) : Z :=
  match idx with
  | a :: (b :: _) as r => (if b - a =? step then 0 else 1) + irregular step r
  | _ => 0
  end.
Definition listed (out : list gap_msg) : Z :=
  Z.of_nat (length (filter (fun m => match m with GapBetween _ _ => true | _ => false end) out)).
Definition claims_incomplete (out : list gap_msg) : bool :=
  existsb (fun m => match m with OnlyFirst _ => true | _ => false end) out.

(** hh:00 *)
Definition full_hour (h t : Z) : Prop := hour_of t = h /\ minute_of t = 0.

(** position of the first element satisfying P, or the length *)
Fixpoint first_pos {A} (P : A -> bool) (l : list A) : nat :=
  match l with [] => O | a :: r => if P a then O else S (first_pos P r) end.
(** position of the last element satisfying P, 0 if there is none *)
Fixpoint last_pos {A} (P : A -> bool) (l : list A) : nat :=
  match l with
  | [] => O
  | a :: r => if existsb P r then S (last_pos P r) else O
  end.

(** finite values of a list; lists without infinities *)
Definition fins (l : list xr) : list R := flat_map (fun x => match x with Fin r => [r] | _ => [] end) l.
Definition numeric (l : list xr) : Prop := Forall (fun x => match x with Fin _ | NaN => True | _ => False end) l.
Definition Rmean (l : list R) : R := (Rsum l / INR (length l))%R.
Definition is_min (l : list R) (m : R) : Prop := In m l /\ forall x, In x l -> (m <= x)%R.
Definition is_max (l : list R) (m : R) : Prop := In m l /\ forall x, In x l -> (x <= m)%R.

(** the sun's declination in radians and the equation of time in hours, for a day of the year *)
Definition decl_angle (doy : Z) : R := (360 / 365.25 * (IZR doy - 79.346) * (PI / 180))%R.
Definition decl_R (doy : Z) : R :=
  let a := decl_angle doy in
  ((0.3723 + 23.2567 * sin a - 0.7580 * cos a + 0.1149 * sin (2 * a) + 0.3656 * cos (2 * a)
    - 0.1712 * sin (3 * a) + 0.0201 * cos (3 * a)) * (PI / 180))%R.
Definition eqtime_R (doy : Z) : R :=
  let a := (2 * PI * IZR (doy - 1) / 365)%R in
  (12 / PI * (0.000075 + 0.001868 * cos a - 0.032077 * sin a - 0.014615 * cos (2 * a) - 0.040849 * sin (2 * a)))%R.
(** true solar noon in local standard time: longitude correction and equation of time *)
Definition noon_R (doy : Z) (lon tz : R) : R := (12 - (lon - 15 * tz) / 15 - eqtime_R doy)%R.

(** the valid values observed in hour h of month m *)
Definition month_hour_values (s : list (Z * xr)) (m h : Z) : list R :=
  fins (map snd (filter (fun p => (month_of (fst p) =? m) && (hour_of (fst p) =? h)) s)).
(** entry of a table: column m, row h *)
Fixpoint entry_of {A} (k : Z) (l : list (Z * A)) : option A :=
  match l with [] => None | (x, v) :: r => if x =? k then Some v else entry_of k r end.
