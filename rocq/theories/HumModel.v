(** Model of melodist/humidity.py. The control flow and the arithmetic are generic in the number type;
    saturation vapour pressure and the diurnal dew point wave are parameters that are instantiated on the
    exact extended reals at the end. *)
From Coq Require Import String ZArith List Bool Reals.
From Verif Require Import Py Num Cal Series Trans UtilModel UtilModel2 Frame.
Import ListNotations.
Open Scope string_scope.
Open Scope Z_scope.
Open Scope list_scope.

(** pandas: sorted union of labels *)
Fixpoint insert_label (x : Z) (l : list Z) : list Z :=
  match l with [] => [x] | y :: r => if x <? y then x :: l else if x =? y then l else y :: insert_label x r end.
Definition union_labels (a b : list Z) : list Z := fold_right insert_label [] (a ++ b).
Fixpoint same_labels (a b : list Z) : bool :=
  match a, b with [], [] => true | x :: a, y :: b => (x =? y) && same_labels a b | _, _ => false end.

(** a key of the table month_hour_precip_mean: (month, hour, wet day) *)
Definition mhp_key : Type := Z * Z * bool.
Definition mhp_eqb (a b : mhp_key) : bool :=
  match a, b with (m, h, w), (m', h', w') => (m =? m') && (h =? h') && Bool.eqb w w' end.
Fixpoint mhp_get {A} (k : mhp_key) (l : list (mhp_key * A)) : option A :=
  match l with [] => None | (k', v) :: r => if mhp_eqb k' k then Some v else mhp_get k r end.

Section Generic.
  Context {T : Type} {N : Num T}.
  Variable saturation : T -> T.          (* util.vapor_pressure(_, 100), one element *)
  Variable wave : Z -> Z -> T.           (* kr, hour: 0.5*sin((hour+1)*pi/kr - 3*pi/4), humidity.py:77-79 *)

  (** [a op b] of two Series: positional for equal indexes, otherwise aligned on the sorted union.
      Simplification: labels are unique (the first one counts). *)
  Definition series_op (f : T -> T -> T) (a b : series T) : series T :=
    if same_labels (index a) (index b) then combine (index a) (map (fun p => f (fst p) (snd p)) (combine (values a) (values b)))
    else map (fun t => (t, match lookup t a, lookup t b with Some x, Some y => f x y | _, _ => n_nan end))
             (union_labels (index a) (index b)).

  (** humidity.py:68-90: the dew point methods. vapor_pressure returns plain arrays, so the hourly
      temperature and the dew point are combined by position. *)
  Definition dewpoint_humidity (e : env) (linear : bool) (tmin : series T) (temp : option (series T)) (a0 a1 : T)
             (kr : option Z) : res (series T) :=
    let tdew_daily := map (fun p => (fst p, (a0 + a1 * snd p)%num)) tmin in                          (* 69 *)
    let* tdew := distribute_equally e tdew_daily false in                                            (* 71 *)
    let* tdew :=
      (if linear then                                                                                (* 73-86 *)
         match kr with
         | None => Err AssertionError
         | Some k =>
             if negb ((k =? 6) || (k =? 12)) then Err AssertionError else
             match temp with
             | None => Err AttributeError
             | Some tp =>
                 if negb (Nat.eqb (length tp) (length tdew)) then Err ValueError else
                 let v := values tdew in
                 let keep := (length v - 24)%nat in
                 let next := skipn 24 v ++ skipn keep v in      (* shift(-24); iloc[-24:] = iloc[-24:] *)
                 Ok (map (fun q => match q with (t, x, y, h) =>
                                     (t, (x + (n_ofZ h / n_ofZ 24 * (y - x) + wave k h))%num) end)
                         (combine (combine tdew next) (map hour_of (index tp))))
             end
         end
       else Ok tdew) in
    match temp with
    | None => Err AttributeError                                                                     (* 89: temp.shape *)
    | Some tp =>
        if negb (Nat.eqb (length tp) (length tdew)) then Err ValueError else
        Ok (map (fun q => (fst (fst q), (n_ofZ 100 * saturation (snd (snd q)) / saturation (snd (fst q)))%num))
                (combine tp tdew))                                                                   (* 88-90 *)
    end.

  (** humidity.py:28-120 [disaggregate_humidity] up to the correction of the daily mean *)
  Definition raw_humidity (e : env) (dd : dframe T) (method : string) (temp : option (series T)) (a0 a1 : option T)
             (kr : option Z) (mhp : option (list (mhp_key * T))) : res (series T) :=
    if String.eqb method "equal" then
      let* h := fcol "hum" dd in distribute_equally e h false
    else if String.eqb method "minimal" then
      let* tmin := fcol "tmin" dd in dewpoint_humidity e false tmin temp n0 n1 kr
    else if String.eqb method "dewpoint_regression" || String.eqb method "linear_dewpoint_variation" then
      match a0, a1 with
      | Some a0, Some a1 =>
          let* tmin := fcol "tmin" dd in
          dewpoint_humidity e (String.eqb method "linear_dewpoint_variation") tmin temp a0 a1 kr
      | _, _ => Err AssertionError
      end
    else if String.eqb method "min_max" then                                                         (* 91-101 *)
      match assoc "hum_min" (f_cols dd), assoc "hum_max" (f_cols dd) with
      | Some _, Some _ =>
          let* c := fcol "hum_min" dd in let* hmin := distribute_equally e c false in
          let* c := fcol "hum_max" dd in let* hmax := distribute_equally e c false in
          let* c := fcol "tmin" dd in let* tmin := distribute_equally e c false in
          let* c := fcol "tmax" dd in let* tmax := distribute_equally e c false in
          match temp with
          | None => Err TypeError
          | Some tp => Ok (series_op n_add hmax (series_op n_mul (series_op n_div (series_op n_sub tp tmin) (series_op n_sub tmax tmin))
                                                                 (series_op n_sub hmin hmax)))
          end
      | _, _ => Err AssertionError
      end
    else                                                                                             (* 102-110 *)
      match mhp with
      | None => Err AssertionError
      | Some tbl =>
          let* c := fcol "precip" dd in let* p := distribute_equally e c false in
          mapM (fun q => match mhp_get (month_of (fst q), hour_of (fst q), (snd q >? n0)%num) tbl with
                         | Some v => Ok (fst q, v) | None => Err KeyError end) p
      end.

  (** humidity.py:112-118 *)
  Definition preserve_mean (e : env) (dd : dframe T) (h : series T) : res (series T) :=
    let* obs := fcol "hum" dd in
    let dis := resample us_day nanmean h in
    let get s t := match lookup t s with Some v => v | None => n_nan end in
    let diff := map (fun t => (t, (get dis t - get obs t)%num)) (union_labels (index obs) (index dis)) in
    let* bias := distribute_equally e diff false in
    let bias := map (fun p => (fst p, if n_isnan (snd p) then n0 else snd p)) bias in
    Ok (map (fun p => (fst p, (snd p - get bias (fst p))%num)) h).

  (** humidity.py:28-120 [disaggregate_humidity] *)
  Definition disaggregate_humidity_gen (e : env) (dd : dframe T) (method : string) (temp : option (series T)) (a0 a1 : option T)
             (kr : option Z) (mhp : option (list (mhp_key * T))) (preserve_daily_mean : bool) : res (series T) :=
    if negb (existsb (String.eqb method) ["equal"; "minimal"; "dewpoint_regression"; "min_max"; "linear_dewpoint_variation"; "month_hour_precip_mean"])
    then Err AssertionError else
    let* h := raw_humidity e dd method temp a0 a1 kr mhp in
    let* h := (if preserve_daily_mean then preserve_mean e dd h else Ok h) in
    Ok (map (fun p => (fst p, clip1 n0 (n_ofZ 100) (snd p))) h).                                     (* 120 *)

  (** humidity.py:133-141 [calculate_month_hour_precip_mean]. Side effect not modelled: the name of the
      index of the caller's frame is set to None. *)
  Definition wet_day (precip : series T) (t : Z) : res bool :=
    match lookup (date_of t * us_day) (resample us_day nansum precip) with
    | Some v => Ok (v >? n0)%num
    | None => Err KeyError
    end.
  Definition calculate_month_hour_precip_mean (d : dframe T) : res (list (mhp_key * T)) :=
    let* precip := fcol "precip" d in
    let* hum := fcol "hum" d in
    let* rows := mapM (fun p => let* w := wet_day precip (fst p) in Ok ((month_of (fst p), hour_of (fst p), w), snd p)) hum in
    let keys := flat_map (fun m => flat_map (fun h => map (fun w => (m, h, w)) [false; true]) (map Z.of_nat (seq 0 24)))
                         (map Z.of_nat (seq 1 12)) in
    Ok (flat_map (fun k => match filter (fun r => mhp_eqb (fst r) k) rows with
                           | [] => []
                           | g => [(k, nanmean (map snd g))]
                           end) keys).
End Generic.

(** the instance on the exact extended reals *)
Definition saturation_x (t : xr) : xr := vapor_pressure1 t (n0 + n_ofZ 100)%num.
Definition wave_x (kr h : Z) : xr :=
  (lit 5 1 * xsin ((n_ofZ h + n1) * xpi / n_ofZ kr - n_ofZ 3 * xpi / n_ofZ 4))%num.
Definition disaggregate_humidity := disaggregate_humidity_gen saturation_x wave_x.

(** humidity.py:123-130 [calculate_dewpoint_regression]: the pairs given to scipy.stats.linregress *)
Definition dewpoint_pairs (d : dframe xr) : res (list (xr * xr)) :=
  match assoc "temp" (f_cols d), assoc "hum" (f_cols d) with
  | Some temp, Some hum =>
      let* td := dewpoint_temperature temp hum in
      let tdew := resample us_day nanmean (combine (f_index d) td) in
      (* groupby(index.normalize()).min() *)
      let tp := combine (f_index d) temp in
      let days := fold_right insert_label [] (map (fun t => date_of t * us_day) (f_index d)) in
      let tmin := map (fun t => (t, nanmin (map snd (filter (fun p => date_of (fst p) * us_day =? t) tp)))) days in
      Ok (flat_map (fun t => match lookup t tmin, lookup t tdew with
                             | Some a, Some b => if n_isnan a || n_isnan b then [] else [(a, b)]
                             | _, _ => []
                             end) (union_labels (index tmin) (index tdew)))
  | _, _ => Err KeyError
  end.
