(** Property C52, continued: what an assignment to lon, lat, timezone or statistics changes, and what it leaves alone. *)
From Coq Require Import String ZArith List Bool Reals Lia Lra.
From Verif Require Import Py Num Cal Series Frame AggModel BuildProofs StationModel SpecStation StationProofs.
Import ListNotations.

(** a place: longitude, latitude, time zone *)
Definition place := (option xr * option xr * option xr)%type.
Definition place_of_station (st : station) : place := (s_lon st, s_lat st, s_tz st).
Definition place_of_stats (q : sstats) : place := (q_lon q, q_lat q, q_tz q).
(** two objects that agree in everything but the place *)
Definition same_station_elsewhere (a b : station) : Prop :=
  s_stats a = s_stats b /\ s_daily a = s_daily b /\ s_disagg a = s_disagg b /\ s_sun a = s_sun b.
Definition same_stats_elsewhere (a b : sstats) : Prop :=
  q_data a = q_data b /\ q_wind_a a = q_wind_a b /\ q_wind_b a = q_wind_b b /\ q_wind_shift a = q_wind_shift b /\
  q_months a = q_months b /\ q_casc a = q_casc b /\ q_a0 a = q_a0 b /\ q_a1 a = q_a1 b /\ q_kr a = q_kr b /\ q_mhp a = q_mhp b /\
  q_delta a = q_delta b /\ q_tcourse a = q_tcourse b /\ q_glob a = q_glob b.
(** everything but station [i] and statistics object [r] is as before *)
Definition else_untouched (w w' : world) (i r : nat) : Prop :=
  length (w_stations w') = length (w_stations w) /\ length (w_stats w') = length (w_stats w) /\
  (forall j, j <> i -> nth_error (w_stations w') j = nth_error (w_stations w) j) /\
  (forall j, j <> r -> nth_error (w_stats w') j = nth_error (w_stats w) j).

Definition moved (o : op) (p : place) : place :=
  match o with
  | SetLon _ v => (v, snd (fst p), snd p)
  | SetLat _ v => (fst (fst p), v, snd p)
  | SetTz _ v => (fst p, v)
  | _ => p
  end.

Theorem C52_location cf mb fc lr pc e w i st q o v : nth_error (w_stations w) i = Some st -> nth_error (w_stats w) (s_stats st) = Some q ->
  In o [SetLon i v; SetLat i v; SetTz i v] ->
  exists w' st' q', step cf mb fc lr pc e w o = (w', None) /\ else_untouched w w' i (s_stats st) /\
    nth_error (w_stations w') i = Some st' /\ place_of_station st' = moved o (place_of_station st) /\ same_station_elsewhere st' st /\
    nth_error (w_stats w') (s_stats st) = Some q' /\ place_of_stats q' = moved o (place_of_stats q) /\ same_stats_elsewhere q' q.
Proof.
  intros HS HQ HO.
  assert (LI : (i < length (w_stations w))%nat) by (apply nth_error_Some; congruence).
  assert (LQ : (s_stats st < length (w_stats w))%nat) by (apply nth_error_Some; congruence).
  assert (SO : stats_of w (s_stats st) = q) by (unfold stats_of; apply nth_error_nth; exact HQ).
  destruct HO as [<-|[<-|[<-|[]]]]; cbn [step]; unfold set_lon, set_lat, set_tz; rewrite HS; eexists; eexists; eexists; (split; [reflexivity|]);
    (split; [split; [|split; [|split]]|]); cbn [upd_station upd_stats w_stations w_stats]; try apply upd_length;
    try (intros j NJ; apply nth_upd_other; congruence); rewrite !nth_upd_same by assumption;
    repeat (split; [first [reflexivity | repeat split; reflexivity]|]); unfold stats_of in *; cbn [upd_station upd_stats w_stations w_stats]; rewrite ?SO;
    first [reflexivity | repeat split; reflexivity].
Qed.
Print Assumptions C52_location.
(** anything but a statistics object is refused, and nothing changes *)
Theorem C52_statistics cf mb fc lr pc e w i st r q : nth_error (w_stations w) i = Some st -> nth_error (w_stats w) r = Some q ->
  exists w' st' q', step cf mb fc lr pc e w (SetStats i (Some r)) = (w', None) /\ else_untouched w w' i r /\
    nth_error (w_stations w') i = Some st' /\ place_of_station st' = place_of_station st /\ s_stats st' = r /\
    s_daily st' = s_daily st /\ s_disagg st' = s_disagg st /\ s_sun st' = s_sun st /\
    nth_error (w_stats w') r = Some q' /\ place_of_stats q' = place_of_station st /\ same_stats_elsewhere q' q /\
    step cf mb fc lr pc e w (SetStats i None) = (w, Some AssertionError).
Proof.
  intros HS HQ. assert (LI : (i < length (w_stations w))%nat) by (apply nth_error_Some; congruence).
  assert (LQ : (r < length (w_stats w))%nat) by (apply nth_error_Some; congruence).
  assert (SO : stats_of w r = q) by (unfold stats_of; apply nth_error_nth; exact HQ).
  cbn [step]. apply Nat.ltb_lt in LQ as LQ'. rewrite LQ'. unfold set_stats. rewrite HS. eexists. eexists. eexists. split; [reflexivity|].
  cbn [upd_station upd_stats w_stations w_stats]. split; [split; [apply upd_length|split; [apply upd_length|]]|].
  - split; intros j NJ; cbn [upd_station upd_stats w_stations w_stats]; apply nth_upd_other; congruence.
  - rewrite !nth_upd_same by assumption. rewrite SO. repeat split.
Qed.
Print Assumptions C52_statistics.
Example C52_location_met cf mb fc lr pc : exists w st q, w = run cf mb fc lr pc modern [NewStation (Some (Fin 1)) (Some (Fin 2)) (Some (Fin 0)) None; NewStation None None None None] empty_world /\
  nth_error (w_stations w) 1 = Some st /\ nth_error (w_stats w) (s_stats st) = Some q /\ nth_error (w_stats w) 0 <> Some q.
Proof.
  eexists. eexists. eexists. split; [reflexivity|]. split; [reflexivity|]. split; [reflexivity|]. cbn. intro E. injection E as E. discriminate.
Qed.
