(** Daily aggregation: the columns daily_from_hourly can produce, where each comes from, and what it
    holds for a day whose valid hourly values are l. *)
From Coq Require Import String ZArith List Bool Reals.
From Verif Require Import Num Cal SpecBase SpecUtil.
Local Open Scope string_scope.

Definition daily_source (out : string) : option string :=
  if String.eqb out "temp" || String.eqb out "tmin" || String.eqb out "tmax" then Some "temp"
  else if String.eqb out "hum" || String.eqb out "hum_min" || String.eqb out "hum_max" then Some "hum"
  else if String.eqb out "precip" || String.eqb out "glob" || String.eqb out "wind" || String.eqb out "ssd" then Some out
  else None.
Definition daily_value (out : string) (l : list R) (v : R) : Prop :=
  if String.eqb out "precip" then v = Rsum l
  else if String.eqb out "ssd" then v = (Rsum l / 60)%R   (* minutes to hours *)
  else if String.eqb out "tmin" || String.eqb out "hum_min" then is_min l v
  else if String.eqb out "tmax" || String.eqb out "hum_max" then is_max l v
  else v = Rmean l.
(** columns that are sums: a day without any valid hour counts as 0 *)
Definition daily_summed (out : string) : bool := String.eqb out "precip" || String.eqb out "ssd".
