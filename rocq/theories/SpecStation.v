(** Vocabulary of the station properties. *)
From Coq Require Import String ZArith List Bool Reals Sorted.
From Verif Require Import Num Cal Series Frame SpecBase StationModel.
Import ListNotations.
Open Scope Z_scope.

(** no statistics object belongs to two stations *)
Definition unshared (w : world) : Prop :=
  forall i j a b, nth_error (w_stations w) i = Some a -> nth_error (w_stations w) j = Some b ->
                  s_stats a = s_stats b -> i = j.
(** the statistics object of station i exists and has the same location *)
Definition in_sync (w : world) (st : station) : Prop :=
  exists q, nth_error (w_stats w) (s_stats st) = Some q /\
            q_lon q = s_lon st /\ q_lat q = s_lat st /\ q_tz q = s_tz st.

(** a data frame as pandas allows it: all columns have the length of the index, and an index with a
    frequency has no repeated stamps *)
Definition frame_ok (f : pframe) : Prop :=
  (forall c v, In (c, v) (f_cols (p_data f)) -> length v = length (f_index (p_data f))) /\
  (p_freq f = true -> is_increasing (f_index (p_data f)) = true -> StronglySorted Z.lt (f_index (p_data f))).
(** below 200 K *)
Definition cold (x : xr) : Prop := match x with Fin r => (r < 200)%R | NInf => True | _ => False end.
(** what the assignment to data_daily refuses *)
Inductive refused : pyval -> Prop :=
| RType : refused VOther
| RIndex f : p_datetime f = false -> refused (VFrame f)
| RResolution f t : In t (f_index (p_data f)) -> t mod us_day <> 0 -> refused (VFrame f)
| ROrder f i a b : nth_error (f_index (p_data f)) i = Some a -> nth_error (f_index (p_data f)) (S i) = Some b -> b < a ->
                   refused (VFrame f)
| RDuplicates f : p_freq f = false -> ~ NoDup (f_index (p_data f)) -> refused (VFrame f)
| REmpty f : p_freq f = false -> f_index (p_data f) = [] -> refused (VFrame f)
| RCold f c v x : In c ["tmin"; "tmax"; "tmean"]%string -> assoc c (f_cols (p_data f)) = Some v -> In x v -> cold x ->
                  refused (VFrame f).

(** the value of row t in a column given by labels and values *)
Fixpoint row_value (t : Z) (labels : list Z) (vals : list xr) : xr :=
  match labels, vals with
  | u :: ls, v :: vs => if u =? t then v else row_value t ls vs
  | _, _ => NaN
  end.
(** the hourly columns of a station *)
Definition hourly_names : list string := ["temp"; "precip"; "glob"; "hum"; "wind"]%string.

(** months of a season ([None]: all) and the days of a record that belong to it *)
Definition season_months (mo : option (list Z)) : list Z :=
  match mo with None => [1; 2; 3; 4; 5; 6; 7; 8; 9; 10; 11; 12] | Some l => l end.
Definition season_day (mo : option (list Z)) (d : Z) : Prop := In (month_of_day d) (season_months mo).
(** lists of months without repetition, no month in two seasons *)
Definition seasons_ok (months : list (option (list Z))) : Prop :=
  (forall mo, In mo months -> season_months mo <> [] /\ NoDup (season_months mo)) /\
  (forall i j a b m, nth_error months i = Some a -> nth_error months j = Some b ->
                     In m (season_months a) -> In m (season_months b) -> i = j).

(** daily data for n consecutive days and the hourly frame that belongs to them *)
Definition ready (st : station) (d0 : Z) (n : nat) (dd : dframe xr) : Prop :=
  n <> O /\ s_daily st = Some dd /\ f_index dd = daily_index d0 n /\
  exists d, s_disagg st = Some d /\ f_index d = hours_index d0 n /\ map fst (f_cols d) = hourly_names.
(** [station.data_disagg.<name>] *)
Definition hourly_column (st : station) (name : string) : option (list xr) :=
  match s_disagg st with Some d => assoc name (f_cols d) | None => None end.
(** its values on one day *)
Definition hourly_on (st : station) (name : string) (day : Z) : list xr :=
  match s_disagg st with
  | Some d => match assoc name (f_cols d) with Some v => values_on day (combine (f_index d) v) | None => [] end
  | None => []
  end.
