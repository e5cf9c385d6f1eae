(** The monthly shift of the temperature maximum for any kind of number, with the trigonometric functions
    and the mean of a month left open. *)
From Coq Require Import ZArith List Bool.
From Verif Require Import Py Num Cal Series UtilModel TempModel SunAnyModel.
Import ListNotations.
Open Scope Z_scope.

Section Generic.
  Context {T : Type} {N : Num T}.
  Variable pi : T.
  Variables sinf cosf tanf acosf : T -> T.
  (** the mean of a group, NaN skipped *)
  Variable meanf : list T -> T.

  (** temperature.py:280 [groupby(...).idxmax()], as [TempModel.first_max] *)
  Fixpoint first_max_any (s : series T) (best : option (Z * T)) : option (Z * T) :=
    match s with
    | [] => best
    | (t, v) :: r =>
        if n_isnan v then first_max_any r best
        else first_max_any r (match best with
                              | None => Some (t, v)
                              | Some (_, b) => if (b <? v)%num then Some (t, v) else best
                              end)
    end.
  (** temperature.py:267-287 [get_shift_by_data]. Simplification as in [TempModel.get_shift_by_data]. *)
  Definition shift_any (temp_hourly : series T) (lon lat tz : T) : list (Z * T) :=
    let daily_index := index (resample us_day nanmean temp_hourly) in                                 (* 277 *)
    let st := sun_times_any pi sinf cosf tanf acosf daily_index lon lat tz in                         (* 278 *)
    let obs := flat_map (fun d => match first_max_any (rows_on d temp_hourly) None with               (* 280-282 *)
                                  | Some (t, _) => [(midnight d, (n_ofZ (hour_of t) : T))]
                                  | None => []
                                  end) (uniq (map date_of (index temp_hourly))) in
    let delta := map (fun p => (fst p, match lookup (fst p) obs with                                  (* 283-284 *)
                                       | Some h => (h - l_noon (snd p))%num
                                       | None => n_nan end)) st in
    map (fun m => (m, meanf (map snd (filter (fun p => month_of (fst p) =? m) delta))))               (* 285 *)
        (filter (fun m => existsb (fun p => month_of (fst p) =? m) delta) (map Z.of_nat (seq 1 12))).
End Generic.
