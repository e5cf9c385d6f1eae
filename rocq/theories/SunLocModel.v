(** The sine temperatures with the hours of the extremes taken from the sun times, for any kind of number.
    [roundf] is numpy's rounding to whole numbers, [intf] the conversion to int; both are left open. *)
From Coq Require Import String ZArith List Bool.
From Verif Require Import Py Num Cal Series UtilModel UtilModel2 Frame TempModel SineModel SunAnyModel.
Import ListNotations.
Open Scope Z_scope.

Section Generic.
  Context {T : Type} {N : Num T}.
  Variable roundf : T -> T.
  Variable intf : T -> res Z.
  Variables (cosf : T -> T) (pi : T).

  (** assignment of a Series to a column of locdf: aligned by label, as [TempModel.align] *)
  Definition aligned (s : series T) (idx : list Z) : list T :=
    map (fun t => match lookup t s with Some v => v | None => n_nan end) idx.
  (** temperature.py:91-107: the columns min_loc and max_loc before astype(int); without monthly shifts
      'sun_loc', with them 'sun_loc_shift'. Simplification as in [TempModel.locations]. *)
  Definition sun_locations (idx : list Z) (max_delta : option (list (Z * T))) (st : list (Z * sun_line T)) : res (list T * list T) :=
    let min_loc := aligned (map (fun p => (fst p, roundf (l_rise (snd p)))) st) idx in                    (* 93, 99 *)
    let std := aligned (map (fun p => (fst p, (roundf (l_noon (snd p)) + n_ofZ 2)%num)) st) idx in        (* 94-96, 105-107 *)
    match max_delta with
    | None => Ok (min_loc, std)
    | Some md =>
        let* deltas := mapM (fun t => match lookup (month_of t) md with Some v => Ok v | None => Err KeyError end) idx in
        if negb (Nat.eqb (length st) (length deltas)) then Err ValueError else
        let max_loc := aligned (map (fun p => (fst (fst p), roundf (l_noon (snd (fst p)) + snd p)%num)) (combine st deltas)) idx in   (* 100-102 *)
        Ok (min_loc, map (fun p => match p with (mn, mx, s) => if (mn >? mx)%num then s else mx end)
                         (combine (combine min_loc max_loc) std))                                         (* 104 *)
    end.
  (** temperature.py:178-240, as [TempModel.polar_branch] *)
  Definition polar_any (e : env) (st : list (Z * sun_line T)) (hours : list Z) : res unit :=
    let polars := map (fun p => (fst p, (l_length (snd p) <? n_ofZ 3)%num)) st in
    match map fst (filter (fun p => snd p) polars) with
    | [] => Ok tt
    | days =>
        let* ph := hourly_index e days in
        if forallb (fun t => mem t hours) ph
        then if mask_ok (bool_diff (map snd polars)) then Ok tt else Err ValueError
        else Err KeyError
    end.
  (** temperature.py:59-240: the sine methods with 'sun_loc' or 'sun_loc_shift' *)
  Definition temp_sun (e : env) (d : dframe T) (use_mean modn : bool) (max_delta : option (list (Z * T))) (st : list (Z * sun_line T)) : res (series T) :=
    let* hours := hourly_index e (f_index d) in
    let* locs := sun_locations (f_index d) max_delta st in
    let* mins := mapM intf (fst locs) in                                                                  (* 109 *)
    let* maxs := mapM intf (snd locs) in                                                                  (* 110 *)
    let* out := temp_sine cosf pi e d use_mean modn mins maxs in
    let* _ := polar_any e st hours in Ok out.
End Generic.
