(** Properties C21, C22, C24, C25, C67: master station, equal distribution, hourly index. *)
From Coq Require Import ZArith List Bool Lia Reals Lra Floats Sorted.
From Verif Require Import Py Num Cal Series UtilModel SpecBase TimeProofs IndexProofs CascadeModel PrecipModel
  SpecCascade EqualProofs MasterProofs.
Import ListNotations.
Open Scope Z_scope.

(** ** C21 *)
Theorem C21_master_station e d0 amounts (master : series xr) uniform :
  amounts <> [] -> has_iteritems e = true -> StronglySorted Z.lt (map fst master) ->
  (forall i, (i < length amounts)%nat -> values_on (d0 + Z.of_nat i) master <> []) ->
  exists out, disagg_prec e (DSeries (daily d0 amounts)) MMaster None master uniform 0 (fun _ => Fin 0) 0 = Ok (Some out) /\
    map fst out = hours_index d0 (length amounts) /\
    forall i r ms, nth_error amounts i = Some (Fin r) -> length ms = 24%nat ->
      filter (fun p => fst p / us_day =? d0 + Z.of_nat i) master
      = combine (grid ((d0 + Z.of_nat i) * us_day) us_hour 24) (map Fin ms) ->
      exists hs, values_on (d0 + Z.of_nat i) out = map Fin hs /\ length hs = 24%nat /\
        (Rsum ms <> 0%R -> Rsum hs = r /\ forall j, (j < 24)%nat -> nth j hs 0%R = (nth j ms 0 / Rsum ms * r)%R) /\
        (Rsum ms = 0%R -> hs = repeat (if uniform then r / 24 else 0)%R 24).
Proof.
  intros NE HI SS CV.
  assert (CV' : forall i, (i < length amounts)%nat -> rows_on (d0 + Z.of_nat i) master <> []).
  { intros i Hi E. apply (CV i Hi). unfold values_on. unfold rows_on in E. rewrite E. reflexivity. }
  destruct (master_station e d0 amounts master uniform NE HI SS CV') as (out & E & I & D).
  exists out. unfold disagg_prec. rewrite E. cbn [bind]. split; [reflexivity|]. split; [exact I|].
  intros i r ms Hi L F. rewrite (D i _ Hi), (master_complete_day master uniform _ ms r F L).
  destruct (Reqb_spec (Rsum ms) 0) as [Z|Z].
  - exists (repeat (if uniform then r / 24 else 0)%R 24). rewrite <- map_repeat with (f := Fin).
    split; [reflexivity|]. split; [apply repeat_length|]. split; [contradiction|reflexivity].
  - exists (map (fun m => m / Rsum ms * r)%R ms). split; [rewrite map_map; reflexivity|].
    split; [rewrite map_length; exact L|]. split; [|contradiction]. intros _. split.
    + rewrite Rsum_scaled; [field|]; exact Z.
    + intros j Hj. set (F0 := fun m => (m / Rsum ms * r)%R).
      rewrite nth_indep with (d' := F0 0%R) by (rewrite map_length; lia). apply (map_nth F0).
Qed.
Print Assumptions C21_master_station.
Theorem C21_current_pandas e d0 (amounts : list xr) master uniform opts shft draws pos :
  amounts <> [] -> has_iteritems e = false ->
  disagg_prec e (DSeries (daily d0 amounts)) MMaster opts master uniform shft draws pos = Err AttributeError.
Proof. intros A B. unfold disagg_prec. rewrite master_modern by assumption. reflexivity. Qed.
Print Assumptions C21_current_pandas.
Definition ex_master : series xr := combine (hours_index 0 2) (repeat (Fin 1) 47 ++ [Fin 3]).
Example C21_met : StronglySorted Z.lt (map fst ex_master) /\
  (forall i, (i < 2)%nat -> values_on (0 + Z.of_nat i) ex_master <> []) /\
  filter (fun p => fst p / us_day =? 1) ex_master
  = combine (grid (1 * us_day) us_hour 24) (map Fin (repeat 1%R 23 ++ [3%R])).
Proof.
  split; [|split].
  - unfold ex_master. rewrite map_fst_combine by reflexivity. unfold hours_index.
    apply (grid_sorted _ us_hour 48). reflexivity.
  - intros i Hi. destruct i as [|[|]]; [discriminate|discriminate|lia].
  - reflexivity.
Qed.

(** ** C22 *)
Theorem C22_equal_distribution e d0 amounts opts master z shft draws pos :
  amounts <> [] ->
  exists out,
    disagg_prec e (DFrame (Some (daily d0 amounts))) MEqual opts master z shft draws pos = Ok (Some out) /\
    map fst out = hours_index d0 (length amounts) /\
    forall i a, nth_error amounts i = Some a ->
      match a with
      | Fin r => values_on (d0 + Z.of_nat i) out = repeat (Fin (r / 24)) 24 /\ Rsum (repeat (r / 24)%R 24) = r
      | NaN => values_on (d0 + Z.of_nat i) out = repeat NaN 24
      | _ => True
      end.
Proof.
  intro NE. destruct (distribute_divided (T := xr) (N := Num_xr) eq_refl e d0 amounts NE) as (out & E & I & D).
  exists out. unfold disagg_prec. rewrite E. cbn [bind]. split; [reflexivity|]. split; [exact I|].
  intros i a Hi. specialize (D i a Hi). destruct D as [L D]. destruct a as [r| | |]; try exact Logic.I.
  - cbn [n_isnan Num_xr xisnan] in D. split.
    + rewrite D. change (n_ofZ 24) with (Fin 24). rewrite xdiv_Fin by lra. reflexivity.
    + unfold Rsum. cbn [repeat fold_right]. lra.
  - cbn [n_isnan Num_xr xisnan] in D. destruct D as (xs & FX & E2). rewrite E2 in L |- *. rewrite map_length in L.
    clear - FX L. rewrite <- L. clear L. induction FX as [|x xs Hx FX IH]; [reflexivity|]. cbn [map length repeat].
    destruct x; try discriminate. f_equal. exact IH.
Qed.
Print Assumptions C22_equal_distribution.
Example C22_met : [Fin 10; NaN; Fin 0] <> [].
Proof. discriminate. Qed.

(** ** C25 *)
Theorem C25_own_day_float e d0 (amounts : list float) : amounts <> [] ->
  exists out, distribute_equally e (daily d0 amounts) false = Ok out /\
    map fst out = hours_index d0 (length amounts) /\
    forall i a, nth_error amounts i = Some a ->
      length (values_on (d0 + Z.of_nat i) out) = 24%nat /\
      if PrimFloat.is_nan a then Forall (fun x => PrimFloat.is_nan x = true) (values_on (d0 + Z.of_nat i) out)
      else values_on (d0 + Z.of_nat i) out = repeat a 24.
Proof. exact (distribute_own_day (T := float) (N := Num_f64) eq_refl e d0 amounts). Qed.
Print Assumptions C25_own_day_float.
Theorem C25_own_day {T} {N : Num T} (nan_is_nan : n_isnan n_nan = true) e d0 (amounts : list T) : amounts <> [] ->
  exists out, distribute_equally e (daily d0 amounts) false = Ok out /\
    map fst out = hours_index d0 (length amounts) /\
    forall i a, nth_error amounts i = Some a ->
      length (values_on (d0 + Z.of_nat i) out) = 24%nat /\
      if n_isnan a then Forall (fun x => n_isnan x = true) (values_on (d0 + Z.of_nat i) out)
      else values_on (d0 + Z.of_nat i) out = repeat a 24.
Proof. exact (distribute_own_day nan_is_nan e d0 amounts). Qed.
Print Assumptions C25_own_day.
Theorem C25_own_day_divided {T} {N : Num T} (nan_is_nan : n_isnan n_nan = true) e d0 (amounts : list T) : amounts <> [] ->
  exists out, distribute_equally e (daily d0 amounts) true = Ok out /\
    map fst out = hours_index d0 (length amounts) /\
    forall i a, nth_error amounts i = Some a ->
      length (values_on (d0 + Z.of_nat i) out) = 24%nat /\
      if n_isnan a
      then exists xs, Forall (fun x => n_isnan x = true) xs /\
             values_on (d0 + Z.of_nat i) out = map (fun x => x / n_ofZ 24)%num xs
      else values_on (d0 + Z.of_nat i) out = repeat (a / n_ofZ 24)%num 24.
Proof. exact (distribute_divided nan_is_nan e d0 amounts). Qed.
Print Assumptions C25_own_day_divided.
(** non-trivial: 34 days, so day 17 and day 48 share their day of month (the 18th) *)
Example C25_met : dom_of_day 17 = dom_of_day 48 /\
  nth_error ([nan; 2] ++ repeat 3 29 ++ [4; nan; nan])%float 31 = Some 4%float.
Proof. split; reflexivity. Qed.

(** ** C24 *)
Theorem C24_gap_free e ds : ds <> [] -> StronglySorted Z.lt ds ->
  (forall g x y, In x ds -> In y ds -> x < g < y -> In g ds) ->
  hourly_index e (map midnight ds) = Ok (days_hours ds).
Proof. exact (hourly_index_gapfree e ds). Qed.
Print Assumptions C24_gap_free.
Theorem C24_gaps e ds g : StronglySorted Z.lt ds -> ~ In g ds ->
  (exists x y, In x ds /\ In y ds /\ x < g < y) ->
  hourly_index e (map midnight ds)
  = if has_index_to_datetime e then Ok (days_hours ds) else Err AttributeError.
Proof. exact (hourly_index_gaps e ds g). Qed.
Print Assumptions C24_gaps.
Theorem C24_ascending ds : StronglySorted Z.lt ds -> StronglySorted Z.lt (days_hours ds).
Proof. exact (days_hours_sorted ds). Qed.
Print Assumptions C24_ascending.
Example C24_met : StronglySorted Z.lt [5; 6; 9] /\ ~ In 7 [5; 6; 9] /\ length (days_hours [5; 6; 9]) = 72%nat.
Proof.
  split; [repeat constructor; lia|]. split; [cbn; lia|]. rewrite days_hours_length. reflexivity.
Qed.

(** ** C67: the documented argument type of disagg_prec is rejected by method 'equal' *)
Theorem C67_series_rejected_by_equal {T} {N : Num T} e (s : series T) opts master z shft draws pos :
  disagg_prec e (DSeries s) MEqual opts master z shft draws pos = Err AttributeError.
Proof. reflexivity. Qed.
Print Assumptions C67_series_rejected_by_equal.
(** ... although the frame with that series as precipitation column is accepted *)
Theorem C67_frame_accepted_by_equal e d0 (amounts : list float) opts master z shft draws pos : amounts <> [] ->
  exists out, disagg_prec e (DFrame (Some (daily d0 amounts))) MEqual opts master z shft draws pos = Ok (Some out).
Proof.
  intro NE. destruct (distribute_divided (T := float) (N := Num_f64) eq_refl e d0 amounts NE) as (out & E & _).
  exists out. unfold disagg_prec. rewrite E. reflexivity.
Qed.
Print Assumptions C67_frame_accepted_by_equal.
