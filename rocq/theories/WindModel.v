(** Model of melodist/wind.py on the exact extended reals. *)
From Coq Require Import String ZArith List Bool Reals.
From Verif Require Import Py Num Cal Series Trans UtilModel Frame.
Import ListNotations.
Open Scope string_scope.
Open Scope Z_scope.
Open Scope list_scope.

(** wind.py:28-42 [_cosine_function] at one hour *)
Definition cosine1 (w t a b t_shift : xr) : xr := (a * w * xcos (xpi * (t - t_shift) / n_ofZ 12) + b * w)%num.

(** a Series, or the plain array that the cosine method returns *)
Inductive wind_out : Type := WSeries (s : series xr) | WArray (l : list xr).

(** wind.py:45-72 [disaggregate_wind]. [draw i] is the i-th number of the random stream; the result
    carries how many numbers were consumed. *)
Definition disaggregate_wind (e : env) (wind : series xr) (method : string) (a b t_shift : option xr) (draw : nat -> xr)
  : res (wind_out * nat) :=
  if negb (existsb (String.eqb method) ["equal"; "cosine"; "random"]) then Err AssertionError else
  let* eq := distribute_equally e wind false in
  if String.eqb method "equal" then Ok (WSeries eq, 0%nat)
  else if String.eqb method "cosine" then
    match a, b, t_shift with
    | Some a, Some b, Some s => Ok (WArray (map (fun p => cosine1 (snd p) (n_ofZ (hour_of (fst p))) a b s) eq), 0%nat)
    | _, _, _ => Err AssertionError
    end
  else
    Ok (WSeries (map (fun q => (fst (fst q), (snd (fst q) * xpow (- xln (draw (snd q))) (lit 3 1))%num))
                     (combine eq (seq 0 (length eq)))), length eq).

(** wind.py:75-94 [fit_cosine_function]: the rows (daily mean, hour, hourly value) given to curve_fit *)
Definition cosine_rows (wind : series xr) : list (xr * Z * xr) :=
  flat_map (fun p =>
    let day := nanmean (map snd (filter (fun q => date_of (fst q) =? date_of (fst p)) wind)) in
    if n_isnan day || n_isnan (snd p) then [] else [(day, hour_of (fst p), snd p)]) wind.
