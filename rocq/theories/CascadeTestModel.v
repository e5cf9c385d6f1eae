(** [disagg_prec_cascade(..., test=True)]: the same computation, other return values. *)
From Coq Require Import ZArith List Bool.
From Verif Require Import Py Num Cal Series UtilModel CascadeModel PrecipModel.
Import ListNotations.
Open Scope Z_scope.

Section Model.
  Context {T : Type} {N : Num T}.

  (** the tuple of lines 323-370: level arrays vdn1, vdn2, ...; vdn_025 (hourly only);
      precip_sn (5-minute output only); the series *)
  Record test_result : Type := {
    tr_levels : list (list T);
    tr_quarters : option (list T);
    tr_boxes : option (series T);
    tr_out : series T
  }.

  (** precipitation.py:74-372 with test=True. Lines 93-319 do not look at [test]; the branches
      324-370 read vdn10 for every level other than 9 and vdn11 for every level other than
      9 and 10, and these names are bound for levels 10 and 11 only (136-140). *)
  Definition disagg_prec_cascade_test (e : env) (s : series T) (arg : casc_arg T)
             (hourly : bool) (lvl : nat) (shft : Z) (draws : nat -> T) (pos : nat)
    : res (option test_result) :=
    if Nat.ltb (length s) 2 then Err ValueError                     (* 93-94 *)
    else
      let miss := missing_days s in                                 (* 98 *)
      let s0 := zero_missing s in                                   (* 97, 99 *)
      let si := n_levels hourly lvl in                              (* 101-104 *)
      let* _ := check_options arg si in                             (* 108-123 *)
      let* r := levels_from arg draws hourly lvl si 1 (values s0) (st0 pos) [] in
      match r with
      | None => Ok None
      | Some [] => Err UnboundLocalError
      | Some (vdn_out :: rest) =>
          let finish out :=                                         (* 314-319 *)
            let out := restore_missing miss out in
            if shft =? 0 then out else shift shft out in
          if hourly then
            let* idx := hourly_index e (index s0) in
            let* out := mk_series idx (to_hours vdn_out) in         (* 283-305 *)
            Ok (Some {| tr_levels := rev (vdn_out :: rest);         (* 324 *)
                        tr_quarters := Some (to_quarters vdn_out);
                        tr_boxes := None; tr_out := finish out |})
          else
            let* idx := sub_level_index e (index s0) lvl in
            let* sn := mk_series idx vdn_out in                     (* 308-310 *)
            let out := finish (resample (5 * us_minute) nansum sn) in   (* 311 *)
            if Nat.eqb lvl 9 || Nat.eqb lvl 10 || Nat.eqb lvl 11 then   (* 326-370 *)
              Ok (Some {| tr_levels := rev (vdn_out :: rest); tr_quarters := None;
                          tr_boxes := Some sn; tr_out := out |})
            else Err UnboundLocalError
      end.
End Model.
Arguments test_result T : clear implicits.
