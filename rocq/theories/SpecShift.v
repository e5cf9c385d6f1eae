(** Means of doubles, and doubles as numbers with a missing value. *)
From Coq Require Import ZArith List Bool Reals Floats.
From Verif Require Import Num Cal SpecBase SpecUtil F64.
Import ListNotations.
Open Scope R_scope.

(** missing or finite *)
Definition present_or_missing (x : float) : Prop := PrimFloat.is_nan x = true \/ PrimFloat.is_finite x = true.
(** a double read as a real number or a missing value *)
Definition reading (x : float) : xr := if PrimFloat.is_nan x then NaN else Fin (fval x).
(** the real numbers of a list *)
Definition valid_numbers (l : list float) : list R := map fval (filter (fun x => negb (PrimFloat.is_nan x)) l).
(** a mean that skips missing values: correct to 1e-9 for values up to 1000; missing if there are none *)
Definition good_month_mean (meanf : list float -> float) : Prop :=
  forall l, (forall x, In x l -> present_or_missing x /\ (PrimFloat.is_finite x = true -> Rabs (fval x) <= 1000)) ->
    (valid_numbers l = [] -> PrimFloat.is_nan (meanf l) = true) /\
    (valid_numbers l <> [] -> PrimFloat.is_finite (meanf l) = true /\ Rabs (fval (meanf l) - Rmean (valid_numbers l)) <= 1 / 10 ^ 9).

(** hour of the maximum less the exact noon, for the days of month m among n days that have a maximum *)
Definition month_differences (lon tz : R) (d0 : Z) (n : nat) (hmax : nat -> option nat) (m : Z) : list R :=
  flat_map (fun i => if (month_of_day (d0 + Z.of_nat i) =? m)%Z
                     then match hmax i with Some h => [INR h - noon_R (doy_of_day (d0 + Z.of_nat i)) lon tz] | None => [] end
                     else []) (seq 0 n).
