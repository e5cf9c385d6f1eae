(** Humidity disaggregation for any kind of number with pandas' mean left open. *)
From Coq Require Import String ZArith List Bool.
From Verif Require Import Py Num Cal Series UtilModel UtilModel2 Frame HumModel.
Import ListNotations.
Open Scope Z_scope.

Section Generic.
  Context {T : Type} {N : Num T}.

  (** humidity.py:112-118, as [HumModel.preserve_mean], but [mean] stands for pandas' [mean()] *)
  Definition preserve_with (mean : list T -> T) (e : env) (dd : dframe T) (h : series T) : res (series T) :=
    let* obs := fcol "hum" dd in
    let dis := resample us_day mean h in
    let get s t := match lookup t s with Some v => v | None => n_nan end in
    let diff := map (fun t => (t, (get dis t - get obs t)%num)) (union_labels (index obs) (index dis)) in
    let* bias := distribute_equally e diff false in
    let bias := map (fun p => (fst p, if n_isnan (snd p) then n0 else snd p)) bias in
    Ok (map (fun p => (fst p, (snd p - get bias (fst p))%num)) h).

  (** humidity.py:28-120 [disaggregate_humidity]; [mean := nanmean] is [HumModel.disaggregate_humidity_gen] *)
  Definition humidity_with (mean : list T -> T) (saturation : T -> T) (wave : Z -> Z -> T) (e : env) (dd : dframe T) (method : string)
             (temp : option (series T)) (a0 a1 : option T) (kr : option Z) (mhp : option (list (mhp_key * T)))
             (preserve_daily_mean : bool) : res (series T) :=
    if negb (existsb (String.eqb method) ["equal"; "minimal"; "dewpoint_regression"; "min_max"; "linear_dewpoint_variation"; "month_hour_precip_mean"]%string)
    then Err AssertionError else
    let* h := raw_humidity saturation wave e dd method temp a0 a1 kr mhp in
    let* h := (if preserve_daily_mean then preserve_with mean e dd h else Ok h) in
    Ok (map (fun p => (fst p, clip1 n0 (n_ofZ 100) (snd p))) h).
End Generic.
