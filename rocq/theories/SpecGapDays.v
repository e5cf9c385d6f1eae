(** Vocabulary of property C139: daily temperatures with missing days. *)
From Coq Require Import ZArith List Bool Sorted Reals.
From Verif Require Import Num Cal SpecUtil RadAnyModel.
Import ListNotations.
Open Scope Z_scope.

Section Days.
  Context {T : Type} {N : Num T}.
  (** the days of the record: at least one, in order, with any gaps *)
  Definition record_of (days : list Z) : Prop := days <> [] /\ StronglySorted Z.lt days.
  Definition recorded (days : list Z) (D : Z) : bool := existsb (Z.eqb D) days.
  (** a daily series over the record *)
  Definition on_days (days : list Z) (f : Z -> T) : list (Z * T) := map (fun D => (D * 86400000000, f D)) days.
  (** the minimum of the following day: the last day takes its own, a day before a gap has none *)
  Definition following (days : list Z) (lo : Z -> T) (D : Z) : T :=
    if D =? last days 0 then lo D else if recorded days (D + 1) then lo (D + 1) else n_nan.
  Definition range_on (days : list Z) (lo hi : Z -> T) (D : Z) : T := (hi D - (lo D + following days lo D) / n_ofZ 2)%num.
  (** the model parameters of a month *)
  Definition params_in (ps : model_params T) (m : Z) (a c : T) : Prop :=
    match ps with
    | AScalar a' c' => a' = a /\ c' = c
    | AMonthly la lc => entry_of m la = Some a /\ entry_of m lc = Some c
    end.
End Days.

(** exact temperatures *)
Definition followed (days : list Z) (D : Z) : bool := (D =? last days 0) || recorded days (D + 1).
Definition swing (days : list Z) (lo hi : Z -> R) (D : Z) : R :=
  (hi D - (lo D + (if (D =? last days 0)%Z then lo D else lo (D + 1)%Z)) / 2)%R.
(** the days of a month whose following day is known (all years of the record together) *)
Definition usable (days : list Z) (m : Z) : list Z := filter (fun D => (month_of_day D =? m) && followed days D) days.
(** the Bristow-Campbell formula *)
Definition bristow_formula (a c avg dT pot : R) : R :=
  (a * (1 - exp (- (36 / 1000 * exp (- (154 / 1000) * avg)) * Rpower dT c)) * pot)%R.
