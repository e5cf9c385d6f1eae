(** Names of disaggregation methods. *)
From Coq Require Import String List.
From Verif Require Import Py StationModel.
Import ListNotations.
Open Scope string_scope.

(** the constants of the class [Options] of the package, __init__.py:53-67, by variable (EQUAL_DISTRIBUTION belongs to no variable) *)
Definition option_equal : string := "equal".
Definition options_temp : list string := ["sine"; "linear"].
Definition options_precip : list string := ["cascade"; "masterstation"].
Definition options_hum : list string := ["minimal"; "dewpoint_regression"; "min_max"; "linear_dewpoint_variation"].
Definition options_wind : list string := ["cosine"; "random"].
Definition options_glob : list string := ["pot_rad"; "pot_rad_via_ssd"; "pot_rad_via_bc"].

(** the names in the documentation of the functions *)
Definition names_wind : list string := ["equal"; "cosine"; "random"].
Definition names_hum : list string := ["equal"; "minimal"; "dewpoint_regression"; "min_max"; "linear_dewpoint_variation"; "month_hour_precip_mean"].
Definition names_temp : list string := ["sine_min_max"; "sine_mean"; "sine"; "mean_course_min_max"; "mean_course_mean"].
Definition names_glob : list string := ["pot_rad"; "pot_rad_via_ssd"; "pot_rad_via_bc"; "mean_course"].
Definition names_precip : list string := ["equal"; "cascade"; "masterstation"].

(** a name is of use if there is any environment, station and statistics for which the call returns *)
Definition of_use (call : env -> sstats -> station -> string -> station * option exn -> Prop) (m : string) : Prop :=
  exists e q st st', call e q st m (st', None).
