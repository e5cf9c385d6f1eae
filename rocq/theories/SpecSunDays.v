(** Sun times that need not match the daily data. *)
From Coq Require Import ZArith List Bool Reals.
From Verif Require Import Num Cal Series UtilModel2 TempModel SpecBase SpecUtil.
Import ListNotations.
Open Scope Z_scope.

(** what the sun times say about day [day]: how long it is light; nothing when the day is not in them *)
Definition light_on (st : sun_table) (day : Z) : option xr := option_map daylength (entry_of (day * us_day) st).
(** every entry is for one of the [n] days from [d0] on, and no day has two *)
Definition within_days (st : sun_table) (d0 : Z) (n : nat) : Prop :=
  NoDup (map fst st) /\ forall t, In t (map fst st) -> In t (daily_index d0 n).
(** an entry with daylight for a time that is not one of the days *)
Definition stranger (st : sun_table) (d0 : Z) (n : nat) : Prop :=
  exists t r dl, In (t, r) st /\ daylength r = Fin dl /\ (0 < dl)%R /\ ~ In t (daily_index d0 n).
