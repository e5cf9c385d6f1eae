(** Model of melodist/precipitation.py: the cascade disaggregation, equal and
    master-station methods, index helpers. (Parameter estimation: AggModel.v) *)
From Coq Require Import ZArith List Bool.
From Verif Require Import Py Num Cal Series UtilModel CascadeModel.
Import ListNotations.
Open Scope Z_scope.

Section Generic.
  Context {T : Type} {N : Num T}.

  (** The [cascade_options] argument: a CascadeStatistics, a list of them, anything else. *)
  Inductive casc_arg : Type :=
  | COne (c : casc T)
  | CList (l : list (casc T))
  | COther.

  (** precipitation.py:112-115 (and 185-188): cumulative branching weights of one cell *)
  Fixpoint wxxcum (c : casc T) (k b t : nat) : T :=
    match k with
    | O => wxx c O b t
    | S k' => (wxxcum c k' b t + wxx c (S k') b t)%num
    end.

  (** precipitation.py:143 *)
  Definition wclassbounds : list T :=
    [n0; lit 1429 4; lit 2857 4; lit 4286 4; lit 5714 4; lit 7143 4; lit 8571 4; n1].

  (** precipitation.py:264: class center of class k *)
  Definition class_center (k : nat) : T :=
    (nth (S k) wclassbounds n_nan - n1 / n_ofZ 14)%num.

  (** Local variables that survive from box to box (and level to level):
      [vbtype], [w1] (None = not assigned yet) and the position in the random stream. *)
  Record st : Type := { rng : nat; vbt : option nat; wgt : option T }.

  (** precipitation.py:206-227: type of box i of [v] (assigned only by the branch taken);
      [old] is the previous content of the variable [vbtype] *)
  Definition box_type (v : list T) (i : nat) (old : option nat) : res (option nat) :=
    if Nat.eqb i 0 then
      let* nx := getitem v (S i) in
      if (nx >? n0)%num then Ok (Some bt_starting) else Ok (Some bt_isolated)
    else if Nat.eqb i (length v - 1) then
      let* pv := getitem v (i - 1) in
      if (pv >? n0)%num then Ok (Some bt_ending) else Ok (Some bt_isolated)
    else
      let* pv := getitem v (i - 1) in
      let* nx := getitem v (S i) in
      let r := old in
      let r := if ((pv =? n0) && (nx =? n0))%num then Some bt_isolated else r in
      let r := if ((pv =? n0) && (nx >? n0))%num then Some bt_starting else r in
      let r := if ((pv >? n0) && (nx >? n0))%num then Some bt_enclosed else r in
      let r := if ((pv >? n0) && (nx =? n0))%num then Some bt_ending else r in
      Ok r.

  (** precipitation.py:262-265: first class whose cumulative weight reaches the draw;
      [old] is the previous content of the variable [w1] *)
  Definition find_class (c : casc T) (b t : nat) (u : T) : option nat :=
    find (fun k => (u <=? wxxcum c k b t)%num) (seq 0 7).
  Definition guess_w1 (c : casc T) (b t : nat) (u : T) (old : option T) : option T :=
    match find_class c b t u with
    | Some k => Some (class_center k)
    | None => old
    end.

  (** Result of handling one box: two output boxes, or the early [return] (None) of line 275 *)
  Inductive outcome : Type :=
  | Boxes (a b : T) (s : st)
  | Return.

  (** precipitation.py:202-281, body of the loop for box [i] with value [x].
      [draws k] is the k-th value np.random.random() returns. *)
  Definition do_box (c : casc T) (meanvol : T) (draws : nat -> T) (v : list T)
             (i : nat) (x : T) (s : st) : res outcome :=
    if (x >? n0)%num then
      let* bt := box_type v i (vbt s) in
      let b := if (x >? meanvol)%num then 1%nat else 0%nat in   (* 230-233 *)
      match bt with
      | None => Err UnboundLocalError                            (* 237: vbtype unassigned *)
      | Some t =>
          let t1 := (t - 1)%nat in
          let p0 := p01 c b t1 in
          let p1 := p10 c b t1 in
          let rndp := draws (rng s) in                           (* 242 *)
          if (rndp <=? p0)%num then                              (* 244-249 *)
            Ok (Boxes n0 x {| rng := S (rng s); vbt := bt; wgt := wgt s |})
          else if ((rndp >? p0) && (rndp <=? p0 + p1))%num then  (* 250-255 *)
            Ok (Boxes x n0 {| rng := S (rng s); vbt := bt; wgt := wgt s |})
          else
            let rndw := draws (S (rng s)) in                     (* 259 *)
            match guess_w1 c b t1 rndw (wgt s) with
            | None => Err UnboundLocalError                      (* 267: w1 unassigned *)
            | Some w1 =>
                let s' := {| rng := S (S (rng s)); vbt := bt; wgt := Some w1 |} in
                if ((w1 <? n0) || (w1 >? n1))%num                (* 273-275 *)
                then Ok Return
                else Ok (Boxes (w1 * x)%num ((n1 - w1) * x)%num s')  (* 267-270 *)
            end
      end
    else Ok (Boxes n0 n0 s).                                     (* 276-281 *)

  (** precipitation.py:201-281: one level. vdn_out is preallocated with twice the length and
      filled from the left with running index j, i.e. the pairs are appended in order. *)
  Fixpoint level_from (c : casc T) (meanvol : T) (draws : nat -> T) (v : list T)
           (i : nat) (rest : list T) (s : st) : res (option (list T * st)) :=
    match rest with
    | [] => Ok (Some ([], s))
    | x :: rest' =>
        let* o := do_box c meanvol draws v i x s in
        match o with
        | Return => Ok None
        | Boxes a b s' =>
            let* r := level_from c meanvol draws v (S i) rest' s' in
            match r with
            | None => Ok None
            | Some (out, s'') => Ok (Some (a :: b :: out, s''))
            end
        end
    end.
  Definition level (c : casc T) (meanvol : T) (draws : nat -> T) (v : list T) (s : st)
    : res (option (list T * st)) := level_from c meanvol draws v 0 v s.

  (** precipitation.py:183-191: statistics object and threshold of the level with
      (already decremented) index si *)
  Definition level_stats (arg : casc_arg) (si : nat) : res (casc T * T) :=
    match arg with
    | COne c => let* m := getitem (threshold c) si in Ok (c, m)
    | CList l =>
        let* c := getitem l si in
        let* m := getitem (threshold c) 0 in Ok (c, m)
    | COther => Err TypeError
    end.

  (** highest level for which an output array is allocated, lines 127-140 *)
  Definition allocated (hourly : bool) (lvl : nat) : nat :=
    let base := if hourly then 5%nat else 9%nat in
    if Nat.eqb lvl 10 || Nat.eqb lvl 11
    then (if hourly then 5%nat else lvl) else base.

  (** precipitation.py:146-281: levels l, l+1, ... with [si] still to be decremented;
      returns the arrays of all levels computed, most recent first *)
  Fixpoint levels_from (arg : casc_arg) (draws : nat -> T) (hourly : bool) (lvl : nat)
           (si l : nat) (v : list T) (s : st) (acc : list (list T))
    : res (option (list (list T))) :=
    match si with
    | O => Ok (Some acc)
    | S si' =>
        (* 163-180: vdn6 ... only exist up to [allocated] *)
        if Nat.ltb (allocated hourly lvl) l then Err UnboundLocalError
        else
          let* cm := level_stats arg si' in
          let* r := level (fst cm) (snd cm) draws v s in
          match r with
          | None => Ok None
          | Some (out, s') => levels_from arg draws hourly lvl si' (S l) out s' (out :: acc)
          end
    end.

  Definition st0 (pos : nat) : st := {| rng := pos; vbt := None; wgt := None |}.

  (** precipitation.py:101-123: number of levels and option checks *)
  Definition n_levels (hourly : bool) (lvl : nat) : nat := if hourly then 5%nat else lvl.
  Definition check_options (arg : casc_arg) (si : nat) : res unit :=
    match arg with
    | COne _ => Ok tt
    | CList l => if Nat.eqb (length l) si then Ok tt else Err ValueError
    | COther => Err TypeError
    end.

  (** precipitation.py:284-290: 0.75 h values to 0.25 h values *)
  Definition to_quarters (v : list T) : list T :=
    flat_map (fun x => let q := (x / n_ofZ 3)%num in [q; q; q]) v.

  (** precipitation.py:293-303: hourly sums via differences of the running sum;
      item 0 is cs[3], item m >= 1 is cs[4m+3] - cs[4m-1] (the loop's i is m+1) *)
  Definition hours_of_cumsum (cs : list T) (n : nat) : list T :=
    map (fun m => if Nat.eqb m 0 then nth 3 cs n_nan
                  else (nth (4 * m + 3) cs n_nan - nth (4 * m - 1) cs n_nan)%num)
        (seq 0 n).
  Definition to_hours (v : list T) : list T :=
    let q := to_quarters v in
    hours_of_cumsum (cumsum q) (length q / 4).

  (** precipitation.py:705-737 [sub_level_index] *)
  Definition sub_level_index (e : env) (daily : list Z) (lvl : nat) : res (list Z) :=
    match idx_min daily, idx_max daily with
    | Some a, Some b =>
        let freq := 42187500 * 2 ^ (11 - Z.of_nat lvl) in
        let idx := date_range a (replace_hms b 23 59 59) freq in
        if Nat.ltb (length daily * 2 ^ lvl) (length idx) then
          if has_index_to_datetime e then       (* 730: pd.datetime *)
            let dates := map date_of daily in
            Ok (map (fun t => midnight (date_of t) + hour_of t * us_hour
                              + minute_of t * us_minute + second_of t * us_second)
                    (filter (fun t => mem (date_of t) dates) idx))
          else Err AttributeError
        else Ok idx
    | _, _ => Err ValueError
    end.

  (** precipitation.py:740-767 [fmin_index] (not used by the library itself) *)
  Definition fmin_index (e : env) (daily : list Z) : res (list Z) :=
    match idx_min daily, idx_max daily with
    | Some a, Some b =>
        let idx := date_range a (replace_hms b 23 59 59) (5 * us_minute) in
        if Nat.ltb (length daily * 288) (length idx) then
          if has_index_to_datetime e then
            let dates := map date_of daily in
            Ok (map (fun t => midnight (date_of t) + hour_of t * us_hour
                              + minute_of t * us_minute + second_of t * us_second)
                    (filter (fun t => mem (date_of t) dates) idx))
          else Err AttributeError
        else Ok idx
    | _, _ => Err ValueError
    end.

  (** precipitation.py:97-99: missing values to zero, remembering the missing days (the
      assignment is by label) *)
  Definition missing_days (s : series T) : list Z :=
    map fst (filter (fun p => n_isnan (snd p)) s).
  Definition zero_missing (s : series T) : series T :=
    mask_set (fun t => mem t (missing_days s)) n0 s.

  (** precipitation.py:313-315 *)
  Definition restore_missing (miss : list Z) (s : series T) : series T :=
    let dates := map date_of miss in
    mask_set (fun t => mem (date_of t) dates) n_nan s.

  (** What the function hands back: the series, plus (for test mode) the level arrays
      vdn1, vdn2, ... in order; [None] is Python's None (line 275). *)
  Record casc_result : Type := { cr_levels : list (list T); cr_out : series T }.

  (** precipitation.py:74-372 [disagg_prec_cascade(precip_daily, cascade_options, hourly,
      level, shift)]; [test] only selects what is returned, see [casc_result].
      [pos] is the state of the global random generator (position in [draws]). *)
  Definition disagg_prec_cascade_full (e : env) (s : series T) (arg : casc_arg)
             (hourly : bool) (lvl : nat) (shft : Z) (draws : nat -> T) (pos : nat)
    : res (option casc_result) :=
    if Nat.ltb (length s) 2 then Err ValueError                     (* 93-94 *)
    else
      let miss := missing_days s in                                 (* 98 *)
      let s0 := zero_missing s in                                   (* 97, 99 *)
      let si := n_levels hourly lvl in                              (* 101-104 *)
      let* _ := check_options arg si in                             (* 108-123 *)
      let* r := levels_from arg draws hourly lvl si 1 (values s0) (st0 pos) [] in
      match r with
      | None => Ok None
      | Some acc =>
          match acc with
          | [] => Err UnboundLocalError            (* si = 0: vdn_out never assigned *)
          | vdn_out :: _ =>
              let* out :=
                if hourly then
                  let* idx := hourly_index e (index s0) in
                  mk_series idx (to_hours vdn_out)                  (* 283-305 *)
                else
                  let* idx := sub_level_index e (index s0) lvl in
                  let* sn := mk_series idx vdn_out in               (* 308-310 *)
                  Ok (resample (5 * us_minute) nansum sn)           (* 311 *)
              in
              let out := restore_missing miss out in                (* 314-315 *)
              let out := if shft =? 0 then out else shift shft out in  (* 318-319 *)
              Ok (Some {| cr_levels := rev acc; cr_out := out |})
          end
      end.

  (** the value seen by a caller with test=False *)
  Definition disagg_prec_cascade (e : env) (s : series T) (arg : casc_arg)
             (hourly : bool) (lvl : nat) (shft : Z) (draws : nat -> T) (pos : nat)
    : res (option (series T)) :=
    let* r := disagg_prec_cascade_full e s arg hourly lvl shft draws pos in
    Ok (option_map cr_out r).

  (** precipitation.py:392-411, body of the loop over the days of [precip_master_station].
      [master_precip_hourly[isoformat]] is pandas' partial string slice on a sorted index:
      KeyError if the day lies outside the index, else the (possibly empty) rows of that day.
      [precip_hourly[isoformat] = series] aligns on labels (NaN where the master has no row,
      ValueError for duplicate labels); [= scalar] fills the day. Master index assumed sorted. *)
  Definition master_day (master : series T) (zerodiv_uniform : bool) (out : series T)
             (t : Z) (precip : T) : res (series T) :=
    let d := date_of t in
    let off := match master with
               | [] => false
               | (t0, _) :: _ => (d <? date_of t0) || (date_of (fst (last master (t0, n_nan))) <? d)
               end in
    if off then Err KeyError
    else
      let ph := filter (fun p => date_of (fst p) =? d) master in          (* 394-395 *)
      let sm := nansum (values ph) in
      let set f := map (fun p => (fst p, if date_of (fst p) =? d then f (fst p) else snd p)) out in
      if negb (sm =? n0)%num && negb (sm =? (if n_isnan sm then n1 else n0))%num then (* 399 *)
        let rel := map (fun p => (fst p, (snd p / sm * precip)%num)) ph in (* 400 *)
        if has_dup (index rel) then Err ValueError
        else Ok (set (fun u => match lookup u rel with Some v => v | None => n_nan end))
      else if zerodiv_uniform
        then Ok (set (fun _ => (n1 / n_ofZ 24 * precip)%num))              (* 404-405 *)
        else Ok (set (fun _ => n0)).                                       (* 407-408 *)

  Fixpoint master_days (master : series T) (zerodiv_uniform : bool) (days : series T)
           (out : series T) : res (series T) :=
    match days with
    | [] => Ok out
    | (t, p) :: r =>
        let* out' := master_day master zerodiv_uniform out t p in
        master_days master zerodiv_uniform r out'
    end.

  (** precipitation.py:375-413 [precip_master_station]; [zerodiv_uniform] is
      [zerodiv == 'uniform'] *)
  Definition precip_master_station (e : env) (s master : series T) (zerodiv_uniform : bool)
    : res (series T) :=
    let* idx := hourly_index e (index s) in
    let out := map (fun t => (t, n_nan)) idx in                            (* 389 *)
    if has_iteritems e then master_days master zerodiv_uniform s out       (* 392 *)
    else Err AttributeError.

  (** the [dailyData] argument: a Series, or a DataFrame of which only the column
      'precip' matters ([None]: no such column) *)
  Inductive daily_arg : Type :=
  | DSeries (s : series T)
  | DFrame (precip : option (series T)).

  (** the [method] argument; [MOther] stands for every other string *)
  Inductive prec_method : Type := MEqual | MCascade | MMaster | MOther.

  (** precipitation.py:31-71 [disagg_prec]. Result [None] is Python's None.
      Simplification: a frame given to 'cascade' or 'masterstation' fails somewhere inside
      pandas; the model answers TypeError and no theorem speaks about that case. *)
  Definition disagg_prec (e : env) (data : daily_arg) (m : prec_method) (opts : option casc_arg)
             (master : series T) (zerodiv_uniform : bool) (shft : Z) (draws : nat -> T) (pos : nat)
    : res (option (series T)) :=
    match m with
    | MOther => Err ValueError                                             (* 59-60 *)
    | MEqual =>                                                            (* 62-63 *)
        match data with
        | DFrame (Some s) => let* r := distribute_equally e s true in Ok (Some r)
        | DFrame None | DSeries _ => Err AttributeError
        end
    | MMaster =>                                                           (* 64-65 *)
        match data with
        | DSeries s => let* r := precip_master_station e s master zerodiv_uniform in Ok (Some r)
        | DFrame _ => Err TypeError
        end
    | MCascade =>                                                          (* 66-68 *)
        match opts with
        | None => Err AssertionError
        | Some arg =>
            match data with
            | DSeries s => disagg_prec_cascade e s arg true 9 shft draws pos
            | DFrame _ => Err TypeError
            end
        end
    end.
End Generic.
Arguments casc_arg T : clear implicits.
Arguments daily_arg T : clear implicits.
