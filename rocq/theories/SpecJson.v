(** What a stored and re-read StationStatistics object has to look like. *)
From Coq Require Import ZArith Reals List Bool.
From Verif Require Import Py Num Series CascadeModel PrecipModel UtilModel2 HumModel RadModel StationModel.
Import ListNotations.
Open Scope R_scope.

(** a number written with ten decimals: a multiple of 10^-10, at most half a unit away; NaN if not finite *)
Definition written (x y : xr) : Prop :=
  match x with
  | Fin r => exists k : Z, y = Fin (IZR k / 10000000000) /\ Rabs (r - IZR k / 10000000000) <= 5 / 100000000000
  | _ => y = NaN
  end.
(** labels strictly increasing *)
Fixpoint ascending (l : list Z) : Prop :=
  match l with a :: (b :: _) as r => (a < b)%Z /\ ascending r | _ => True end.
Definition opt_rel {A B} (P : A -> B -> Prop) (a : option A) (b : option B) : Prop :=
  match a, b with Some a, Some b => P a b | None, None => True | _, _ => False end.
(** the same labelled values up to order and [P] *)
Definition same_table {A} (P : A -> A -> Prop) (s s' : list (Z * A)) : Prop :=
  ascending (map fst s') /\ forall k, opt_rel P (lookup k s) (lookup k s').
(** a table of courses restricted to the twelve months *)
Definition same_course (c c' : course xr) : Prop :=
  map fst c' = map Z.of_nat (seq 1 12) /\
  forall m, (1 <= m <= 12)%Z -> opt_rel (same_table written) (lookup m c) (lookup m c').
(** cascade statistics: equal inside the shapes of the tables *)
Definition same_casc (c c' : casc xr) : Prop :=
  (forall b t, (b < 2)%nat -> (t < 4)%nat -> p01 c' b t = p01 c b t /\ p10 c' b t = p10 c b t /\ pxx c' b t = pxx c b t /\
     forall k, (k < 7)%nat -> wxx c' k b t = wxx c k b t) /\
  threshold c' = threshold c /\ percentile c' = percentile c.
Definition same_arg (a a' : casc_arg xr) : Prop :=
  match a, a' with
  | COne c, COne c' => same_casc c c'
  | CList l, CList l' => Forall2 same_casc l l'
  | _, _ => False
  end.
Definition same_pair (x y : xr * xr) : Prop := written (fst x) (fst y) /\ written (snd x) (snd y).

Record stored (s s' : sstats) : Prop := {
  st_wind : q_wind_a s' = q_wind_a s /\ q_wind_b s' = q_wind_b s /\ q_wind_shift s' = q_wind_shift s;
  st_months : q_months s' = q_months s;
  st_casc : opt_rel (Forall2 same_arg) (q_casc s) (q_casc s');
  st_hum : q_a0 s' = q_a0 s /\ q_a1 s' = q_a1 s /\ q_kr s' = q_kr s;
  st_mhp : opt_rel (Forall2 (fun p p' => fst p' = fst p /\ written (snd p) (snd p'))) (q_mhp s) (q_mhp s');
  st_delta : opt_rel (same_table written) (q_delta s) (q_delta s');
  st_tcourse : opt_rel same_course (q_tcourse s) (q_tcourse s');
  st_gcourse : opt_rel same_course (g_course (q_glob s)) (g_course (q_glob s'));
  st_angstroem : same_table same_pair (g_angstroem (q_glob s)) (g_angstroem (q_glob s'));
  st_bristcamp : same_table same_pair (g_bristcamp (q_glob s)) (g_bristcamp (q_glob s'));
  (* not part of the file *)
  st_place : q_lon s' = None /\ q_lat s' = None /\ q_tz s' = None /\ q_data s' = None }.

(** which objects can be stored and read back *)
Definition a_frame {A} (c : list (Z * list (Z * A))) : Prop :=
  forall m m' col col', In (m, col) c -> In (m', col') c -> map fst col = map fst col'.
Definition all_months {A} (c : list (Z * A)) : Prop := forall m, (1 <= m <= 12)%Z -> In m (map fst c).
(** courses are frames with the twelve months; the monthly shifts are not all above a year's number of seconds
    (or missing); the humidity table does not consist of a single row; labels are unique; cascade statistics are
    objects or lists of objects *)
Record storable (s : sstats) : Prop := {
  ok_delta : forall d, q_delta s = Some d -> NoDup (map fst d) /\ (d = [] \/ exists t r, In (t, Fin r) d /\ r <= 31536000);
  ok_tcourse : forall c, q_tcourse s = Some c -> NoDup (map fst c) /\ Forall (fun p => NoDup (map fst (snd p))) c /\ a_frame c /\ all_months c;
  ok_gcourse : forall c, g_course (q_glob s) = Some c -> NoDup (map fst c) /\ Forall (fun p => NoDup (map fst (snd p))) c /\ a_frame c /\ all_months c;
  ok_tables : NoDup (map fst (g_angstroem (q_glob s))) /\ NoDup (map fst (g_bristcamp (q_glob s)));
  ok_mhp : forall t, q_mhp s = Some t -> length t <> 1%nat;
  ok_casc : forall l, q_casc s = Some l -> Forall (fun a => a <> COther) l }.
