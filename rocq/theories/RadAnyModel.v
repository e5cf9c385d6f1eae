(** The daily radiation models and the random wind for any kind of number, with the mean and the
    transcendental functions left open. *)
From Coq Require Import String ZArith List Bool.
From Verif Require Import Py Num Cal Series UtilModel UtilModel2 Frame TempModel RadModel.
Import ListNotations.
Open Scope Z_scope.
Open Scope list_scope.

(** model parameters: two numbers, or two series by month. Simplification: both of the same kind. *)
Inductive model_params (T : Type) : Type := AScalar (a b : T) | AMonthly (la lb : list (Z * T)).
Arguments AScalar {T}. Arguments AMonthly {T}.

Section Generic.
  Context {T : Type} {N : Num T}.

  (** radiation.py:241-244 and 304-307: [a.loc[months].values], KeyError when a month is missing *)
  Definition month_value (l : list (Z * T)) (t : Z) : res T :=
    match lookup (month_of t) l with Some v => Ok v | None => Err KeyError end.
  Definition values_at (p : model_params T) (t : Z) : res (T * T) :=
    match p with
    | AScalar a b => Ok (a, b)
    | AMonthly la lb => let* a := month_value la t in let* b := month_value lb t in Ok (a, b)
    end.

  (** radiation.py:309 *)
  Definition angstroem_value (ssd dl pot a b : T) : T := ((a + b * ssd / dl) * pot)%num.
  (** radiation.py:283-311 [angstroem], the three series on the same labels *)
  Definition angstroem_any (ps : model_params T) (rows : list (Z * (T * T * T))) : res (series T) :=
    mapM (fun r => match r with (t, (ssd, dl, pot)) =>
            let* ab := values_at ps t in Ok (t, angstroem_value ssd dl pot (fst ab) (snd ab)) end) rows.

  (** [s.loc[t]] *)
  Definition value_at (s : series T) (t : Z) : res T :=
    match lookup t s with Some v => Ok v | None => Err KeyError end.

  (** radiation.py:236 and 245-246; [expf] is np.exp, [powf] is [**] *)
  Definition bristow_B (expf : T -> T) (dt_avg : T) : T := (lit 36 3 * expf (lit (-154) 3 * dt_avg))%num.
  Definition bristow_value (expf : T -> T) (powf : T -> T -> T) (A C B dT pot : T) : T :=
    (A * (n1 - expf (- B * powf dT C)) * pot)%num.
  (** radiation.py:207-248 [bristow_campbell]; [mean] is pandas' [mean()] *)
  Definition bristow_any (expf : T -> T) (powf : T -> T -> T) (mean : list T -> T) (ps : model_params T)
             (tmin tmax pot_rad_daily : series T) : res (series T) :=
    if negb (zlist_eqb (index tmin) (index tmax)) then Err AssertionError else (* 224 *)
    match index tmin with
    | [] => Err IndexError                                                     (* 227 *)
    | t0 :: _ =>
        let idx := index tmin in
        let full := date_range t0 (last idx t0) us_day in
        if has_dup idx then Err ValueError else                                (* reindex *)
        let get s t := match lookup t s with Some v => v | None => n_nan end in
        let tmin_full := map (fun t => (t, get tmin t)) full in
        (* 228-229: the next row, the last row keeps its own *)
        let nextday := combine full (map snd (skipn 1 tmin_full) ++ map snd (skipn (length full - 1) tmin_full)) in
        let* rows := mapM (fun t => let* n := value_at nextday t in            (* 231 *)
                                    let* lo := value_at tmin_full t in Ok (t, (get tmax t - (lo + n) / n_ofZ 2)%num)) idx in
        let* pots := mapM (fun t => value_at pot_rad_daily t) idx in           (* 232 *)
        let avg m := mean (map snd (filter (fun p => month_of (fst p) =? m) rows)) in
        mapM (fun q => match q with (t, dT, pot) =>
                let* ac := values_at ps t in
                Ok (t, bristow_value expf powf (fst ac) (snd ac) (bristow_B expf (avg (month_of t))) dT pot) end) (combine rows pots)
    end.

  (** wind.py:60,70 [disaggregate_wind] with method 'random'; [lnf] is np.log, [draw i] the i-th number of
      the random stream; the result carries how many numbers were consumed *)
  Definition random_value (lnf : T -> T) (powf : T -> T -> T) (w u : T) : T := (w * powf (- lnf u) (lit 3 1))%num.
  Definition random_any (lnf : T -> T) (powf : T -> T -> T) (e : env) (wind : series T) (draw : nat -> T) : res (series T * nat) :=
    let* eq := distribute_equally e wind false in
    Ok (map (fun q => (fst (fst q), random_value lnf powf (snd (fst q)) (draw (snd q)))) (combine eq (seq 0 (length eq))), length eq).
End Generic.
