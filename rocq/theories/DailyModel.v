(** Daily aggregates with the summation left open. *)
From Coq Require Import String ZArith List Bool.
From Verif Require Import Py Num Cal Series UtilModel2.
Import ListNotations.
Open Scope Z_scope.
Open Scope string_scope.

Section Generic.
  Context {T : Type} {N : Num T}.
  (** pandas' [mean()]: the sum over the valid values divided by their number; [tot] stands for the summation *)
  Definition mean_with (tot : list T -> T) (l : list T) : T :=
    match valid l with [] => n_nan | v => (tot l / n_ofZ (Z.of_nat (length v)))%num end.
  (** util.py:374-414 [daily_from_hourly] as [UtilModel2.daily_from_hourly]; [tot := nansum] is that definition *)
  Definition daily_from_hourly_with (tot : list T -> T) (df : frame T) : frame T :=
    let mean := resample us_day (mean_with tot) in
    let sum := resample us_day tot in
    (add_col df "temp" "temp" mean ++ add_col df "temp" "tmin" day_min ++ add_col df "temp" "tmax" day_max ++
     add_col df "precip" "precip" sum ++
     add_col df "glob" "glob" mean ++
     add_col df "hum" "hum" mean ++ add_col df "hum" "hum_min" day_min ++ add_col df "hum" "hum_max" day_max ++
     add_col df "wind" "wind" mean ++
     add_col df "ssd" "ssd" (fun s => map (fun p => (fst p, (snd p / n_ofZ 60)%num)) (sum s)))%list.
End Generic.
