(** What the Bristow-Campbell calibration minimises. *)
From Coq Require Import ZArith List Bool Reals.
From Verif Require Import Py Num Cal Series Frame Trans RadModel.
Import ListNotations.
Open Scope Z_scope.

(** np.abs *)
Definition xabs (x : xr) : xr := match x with Fin r => Fin (Rabs r) | NInf => PInf | y => y end.

(** radiation.py:272-278 [bc_absbias], the function [fit_bristow_campbell_params] hands to
    scipy.optimize.minimize, for the table [rows] of complete days (columns tmin, tmax, pot, obs) that
    dropna leaves (275-277, [join4]).  The difference of two series aligns the labels; np.mean of a
    Series is its NaN-skipping mean. *)
Definition bc_absbias (rows : list row4) (a c : xr) : res xr :=
  let tmin := map (fun r => (fst r, fst (fst (fst (snd r))))) rows in
  let tmax := map (fun r => (fst r, snd (fst (fst (snd r))))) rows in
  let pot := map (fun r => (fst r, snd (fst (snd r)))) rows in
  let obs := map (fun r => (fst r, snd (snd r))) rows in
  let* est := bristow_campbell (PScalar a c) tmin tmax pot in
  Ok (xabs (nanmean (map (fun p => (snd p - match lookup (fst p) obs with Some o => o | None => NaN end)%num) est))).
