(** Sessions of disaggregation calls on one station. *)
From Coq Require Import List String ZArith.
From Verif Require Import Py Num Cal Series Frame StationModel.
Import ListNotations.
Local Open Scope string_scope.

(** the hourly column a call is meant to fill *)
Definition fills (o : data_op) : option string :=
  match o with
  | DWind _ _ => Some "wind" | DHum _ _ => Some "hum" | DTemp _ _ _ => Some "temp"
  | DPrecip _ _ _ _ _ => Some "precip" | DRad _ _ => Some "glob" | _ => None
  end.
(** the station after calls, in order; exceptions are caught by the caller *)
Definition session (e : env) (q : sstats) (st : station) (ops : list data_op) : station :=
  fold_left (fun st o => fst (run_data e q st o)) ops st.
Definition fails (e : env) (q : sstats) (st : station) (o : data_op) : option exn := snd (run_data e q st o).
(** one call needs what the other fills *)
Definition dependent (a b : string) : Prop := a = "temp" /\ b = "hum" \/ a = "hum" /\ b = "temp".
