(** What a disaggregation call reads and writes (C98). *)
From Coq Require Import List String ZArith Bool Lia.
From Verif Require Import Py Num Cal Series Frame WindModel HumModel TempModel RadModel PrecipModel StationModel SpecOrder StationProofs.
Import ListNotations.
Local Open Scope string_scope.

(** the part of a station calls with sun times present read, except hourly values *)
Definition same_input (a b : station) : Prop :=
  s_lon a = s_lon b /\ s_lat a = s_lat b /\ s_tz a = s_tz b /\ s_daily a = s_daily b /\ s_sun a = s_sun b /\
  match s_disagg a, s_disagg b with
  | Some d, Some d' => f_index d = f_index d'
  | None, None => True
  | _, _ => False
  end.

(** what the assignment of a series to an hourly column leads to *)
Definition placed_series (s : series xr) (idx : list Z) : res (list xr) :=
  if same_labels (index s) idx then Ok (values s)
  else if has_dup (index s) then Err ValueError else Ok (align s idx).
Definition placed_array (l : list xr) (idx : list Z) : res (list xr) :=
  if Nat.eqb (List.length l) (List.length idx) then Ok l else Err ValueError.
Definition write (name : string) (r : res (list xr)) (d : dframe xr) (st : station) : station * option exn :=
  match r with Err x => (st, Some x) | Ok l => (with_disagg st (Some (put_column name l d)), None) end.

Lemma put_series_write name s st d : s_disagg st = Some d ->
  put_series name s st = write name (placed_series s (f_index d)) d st.
Proof.
  intro E. unfold put_series, write, placed_series. rewrite E.
  destruct (same_labels (index s) (f_index d)); [reflexivity|]. destruct (has_dup (index s)); reflexivity.
Qed.
Lemma finish_write name r st d : s_disagg st = Some d ->
  finish name r st = write name (bind r (fun s => placed_series s (f_index d))) d st.
Proof. intro E. unfold finish. destruct r as [s|x]; cbn [bind]; [apply put_series_write, E|reflexivity]. Qed.
Lemma st_wind_write e q st m dr d : s_disagg st = Some d ->
  st_wind e q st m dr
  = write "wind" (bind (bind (daily_col st "wind") (fun w => disaggregate_wind e w m (q_wind_a q) (q_wind_b q) (q_wind_shift q) dr))
      (fun r => match fst r with WSeries s => placed_series s (f_index d) | WArray l => placed_array l (f_index d) end)) d st.
Proof.
  intro E. unfold st_wind. set (R := bind (daily_col st "wind") _). destruct R as [[[s|l] k]|x]; cbn [bind fst].
  - apply put_series_write, E.
  - unfold put_array, write, placed_array. rewrite E. destruct (Nat.eqb _ _); reflexivity.
  - reflexivity.
Qed.

(** every call writes the result of a function of its input *)
Definition result (e : env) (q : sstats) (st : station) (d : dframe xr) (o : data_op) : res (list xr) :=
  let series r := bind r (fun s => placed_series s (f_index d)) in
  match o with
  | DWind m dr => bind (bind (daily_col st "wind") (fun w => disaggregate_wind e w m (q_wind_a q) (q_wind_b q) (q_wind_shift q) dr))
      (fun r => match fst r with WSeries s => placed_series s (f_index d) | WArray l => placed_array l (f_index d) end)
  | DHum m k => series (let* dd := daily_frame st in let* temp := fcol "temp" d in
                  disaggregate_humidity e dd m (Some temp) (q_a0 q) (q_a1 q) (q_kr q) (q_mhp q) k)
  | DTemp m t n => series (let* dd := daily_frame_temp st m in
                     disaggregate_temperature e dd m t n (q_delta q) (q_tcourse q) (s_sun st))
  | DPrecip method uniform shft master draws => series
      (if String.eqb method "equal" then
         let precip := match daily_col st "precip" with Ok s => Some s | Err _ => None end in
         let* r := disagg_prec e (DFrame precip) MEqual None [] true shft (draws 0%nat) 0 in
         match r with Some s => Ok s | None => Err AttributeError end
       else if String.eqb method "cascade" then
         match q_months q, q_casc q with
         | Some months, Some stats =>
             match combine months stats with
             | [] => Ok (map (fun t => (t, NaN)) (f_index d))
             | seasons => let* precip := daily_col st "precip" in
                          st_seasons e precip uniform shft draws 0 seasons (map (fun t => (t, NaN)) (f_index d))
             end
         | _, _ => Err TypeError
         end
       else if String.eqb method "masterstation" then
         let* s := daily_col st "precip" in
         match master with
         | Some m => precip_master_station e s m uniform
         | None => Err (if has_iteritems e then TypeError else AttributeError)
         end
       else Err UnboundLocalError)
  | DRad method pot => series
      (let* pot :=
         match pot with
         | Some p => Ok (Some p)
         | None =>
             if String.eqb method "mean_course" then Ok None else
             match s_lon st, s_lat st, s_tz st with
             | Some lon, Some lat, Some tz => Ok (Some (potential_radiation (f_index d) lon lat tz n0 n0 n0))
             | _, _, _ => Err TypeError
             end
         end in
       let* dd := daily_frame st in
       disaggregate_radiation e dd (s_sun st) pot method (glob_params (g_angstroem (q_glob q)))
         (glob_params (g_bristcamp (q_glob q))) (g_course (q_glob q)))
  | _ => Err TypeError
  end.

Lemma run_write e q st d o c : s_disagg st = Some d -> s_sun st <> None -> fills o = Some c ->
  run_data e q st o = write c (result e q st d o) d st.
Proof.
  intros E S F. destruct o as [v| |m dr|m k|m t n|m u s ms dr|m p]; cbn [fills] in F; try discriminate;
    apply (f_equal (fun o => match o with Some c => c | None => c end)) in F; subst c; cbn [run_data].
  - apply st_wind_write, E.
  - unfold st_humidity. rewrite (finish_write _ _ _ d E). rewrite E. reflexivity.
  - unfold st_temperature. apply finish_write, E.
  - unfold st_precipitation. rewrite (finish_write _ _ _ d E). unfold st_cascade. rewrite E. reflexivity.
  - unfold st_radiation. destruct (s_sun st) as [sn|] eqn:ES; [|congruence].
    rewrite (finish_write _ _ _ d E). cbn [result]. rewrite E, ES. reflexivity.
Qed.

Lemma result_input e q a b d d' o c : same_input a b -> f_index d = f_index d' -> fills o = Some c ->
  (c = "hum" -> assoc "temp" (f_cols d) = assoc "temp" (f_cols d')) ->
  result e q a d o = result e q b d' o.
Proof.
  intros (E1 & E2 & E3 & E4 & E5 & _) I F T.
  destruct o as [v| |m dr|m k|m t n|m u s ms dr|m p]; cbn [fills] in F; try discriminate; cbn [result];
    unfold daily_col, daily_frame, daily_frame_temp; rewrite ?E1, ?E2, ?E3, ?E4, ?E5, ?I; try reflexivity.
  assert (FC : fcol "temp" d = fcol "temp" d').
  { unfold fcol. rewrite T, I by congruence. reflexivity. }
  rewrite FC. reflexivity.
Qed.

Lemma same_input_refl st : same_input st st.
Proof. unfold same_input. repeat split. destruct (s_disagg st); [reflexivity|exact I]. Qed.
Lemma same_input_write c r d st : s_disagg st = Some d -> same_input (fst (write c r d st)) st.
Proof.
  intro E. destruct r as [l|x]; cbn [write fst]; [|apply same_input_refl].
  unfold same_input. cbn. rewrite E. repeat split.
Qed.
Lemma same_input_trans a b c : same_input a b -> same_input b c -> same_input a c.
Proof.
  intros (A1 & A2 & A3 & A4 & A5 & A6) (B1 & B2 & B3 & B4 & B5 & B6). unfold same_input.
  repeat apply conj; try congruence. destruct (s_disagg a), (s_disagg b), (s_disagg c); try contradiction; congruence || exact I.
Qed.

Lemma put_comm a b l k d : a <> b -> put_column a l (put_column b k d) = put_column b k (put_column a l d).
Proof.
  intro N. unfold put_column. cbn [f_index f_cols]. f_equal. rewrite !map_map. apply map_ext. intros [c v]. cbn [fst].
  destruct (String.eqb_spec c a) as [EA|NA]; destruct (String.eqb_spec c b) as [EB|NB]; cbn [fst];
    repeat match goal with |- context [String.eqb ?x ?y] => destruct (String.eqb_spec x y) end; congruence.
Qed.
Lemma put_twice a l k d : put_column a l (put_column a k d) = put_column a l d.
Proof.
  unfold put_column. cbn [f_index f_cols]. f_equal. rewrite !map_map. apply map_ext. intros [c v]. cbn [fst].
  destruct (String.eqb_spec c a) as [->|NA]; cbn [fst]; rewrite ?String.eqb_refl; try reflexivity.
  destruct (String.eqb_spec c a); [congruence|reflexivity].
Qed.
Lemma put_assoc a l d : In a (map fst (f_cols d)) -> assoc a (f_cols (put_column a l d)) = Some l.
Proof.
  cbn [put_column f_cols]. induction (f_cols d) as [|[c v] r IH]; intro H; [destruct H|].
  cbn [map fst assoc]. destruct (String.eqb_spec c a) as [->|N]; cbn [assoc].
  - rewrite String.eqb_refl. reflexivity.
  - destruct (String.eqb_spec c a); [congruence|]. apply IH. destruct H; [contradiction|assumption].
Qed.
Lemma put_other a b l d : b <> a -> assoc b (f_cols (put_column a l d)) = assoc b (f_cols d).
Proof. intro N. apply (proj2 (proj2 (put_column_ok a l d)) b N). Qed.
