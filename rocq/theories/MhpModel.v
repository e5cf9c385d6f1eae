(** The table of mean humidities by month, hour and wet day, for any kind of number, with pandas' sum and mean left open. *)
From Coq Require Import String ZArith List Bool.
From Verif Require Import Py Num Cal Series UtilModel Frame HumModel.
Import ListNotations.
Open Scope Z_scope.

Section Generic.
  Context {T : Type} {N : Num T}.
  Variables sum mean : list T -> T.
  (** humidity.py:134, 138: the daily sum of the day of label [t] is positive *)
  Definition wet_any (precip : series T) (t : Z) : res bool :=
    match lookup (date_of t * us_day) (resample us_day sum precip) with
    | Some v => Ok (v >? n0)%num
    | None => Err KeyError
    end.
  (** humidity.py:133-141 [calculate_month_hour_precip_mean]; [sum := nansum], [mean := nanmean] is
      [HumModel.calculate_month_hour_precip_mean] *)
  Definition classes_any (d : dframe T) : res (list (mhp_key * T)) :=
    let* precip := fcol "precip" d in
    let* hum := fcol "hum" d in
    let* rows := mapM (fun p => let* w := wet_any precip (fst p) in Ok ((month_of (fst p), hour_of (fst p), w), snd p)) hum in
    let keys := flat_map (fun m => flat_map (fun h => map (fun w => (m, h, w)) [false; true]) (map Z.of_nat (seq 0 24)))
                         (map Z.of_nat (seq 1 12)) in
    Ok (flat_map (fun k => match filter (fun r => mhp_eqb (fst r) k) rows with
                           | [] => []
                           | g => [(k, mean (map snd g))]
                           end) keys).
End Generic.
