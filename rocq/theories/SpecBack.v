(** Daily data computed back from the hourly frame of a station. *)
From Coq Require Import List String ZArith Reals.
From Verif Require Import Py Num Cal Series Frame UtilModel UtilModel2 SpecBase SpecUtil StationModel SpecStation SpecOrder.
Import ListNotations.
Local Open Scope string_scope.
Local Open Scope Z_scope.

(** [station.data_disagg] as a table *)
Definition hourly_frame (st : station) : frame xr :=
  match s_disagg st with
  | Some d => map (fun c => (fst c, combine (f_index d) (snd c))) (f_cols d)
  | None => []
  end.
(** [melodist.util.daily_from_hourly(station.data_disagg)[out]] on a day *)
Definition back (st : station) (out : string) (day : Z) : option xr :=
  match get_col out (daily_from_hourly (hourly_frame st)) with
  | Some s => entry_of (midnight day) s
  | None => None
  end.
(** the calls of a session fill hourly columns, and o is the last one for its column that does not fail
    (whether it fails is the same on the untouched station: C98) *)
Definition last_call (e : env) (q : sstats) (st : station) (ops : list data_op) (o : data_op) : Prop :=
  (forall o', In o' ops -> fills o' <> None) /\ fails e q st o = None /\
  exists before after, ops = (before ++ o :: after)%list /\
    forall o', In o' after -> fills o' = fills o -> fails e q st o' <> None.
(** amounts of precipitation come back; days without observation come back as dry *)
Definition comes_back (st : station) (d0 : Z) (amounts : list xr) : Prop :=
  forall i, (i < List.length amounts)%nat ->
    match nth i amounts NaN with
    | Fin r => back st "precip" (d0 + Z.of_nat i) = Some (Fin r)
    | NaN => back st "precip" (d0 + Z.of_nat i) = Some (Fin 0%R)
    | _ => True
    end.
