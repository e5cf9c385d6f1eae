(** Model of the statistics part of melodist/precipitation.py: aggregate_precipitation,
    seasonal_subset, build_casc. *)
From Coq Require Import ZArith List Bool.
From Verif Require Import Py Num Cal Series CascadeModel.
Import ListNotations.
Open Scope Z_scope.

Section Generic.
  Context {T : Type} {N : Num T}.

  (** ascending sort, as used inside np.percentile *)
  Fixpoint insert (x : T) (l : list T) : list T :=
    match l with [] => [x] | y :: r => if (x <=? y)%num then x :: l else y :: insert x r end.
  Definition sort (l : list T) : list T := fold_right insert [] l.

  (** np.percentile(l, q), linear interpolation, for an integer percentage q; IndexError for an
      empty array, ValueError for q outside 0..100. Simplification: position and fraction are
      exact rationals (numpy computes them in double precision). *)
  Definition np_percentile (q : Z) (l : list T) : res T :=
    if (q <? 0) || (100 <? q) then Err ValueError
    else match sort l with
    | [] => Err IndexError
    | x :: r =>
        let a := x :: r in
        let p := (Z.of_nat (length a) - 1) * q in
        let i := Z.to_nat (p / 100) in
        let lo := nth i a n_nan in
        let hi := nth (S i) a lo in
        Ok (lo + (hi - lo) * (n_ofZ (p mod 100) / n_ofZ 100))%num
    end.

  (** precipitation.py:439-448: sums of disjoint pairs, stamped with the second time *)
  Fixpoint pair_sums (s : series T) : series T :=
    match s with
    | (_, x) :: (t, y) :: r => (t, (x + y)%num) :: pair_sums r
    | _ => []
    end.

  Definition rain (x : T) : bool := (n0 <? x)%num.
  Definition is0 (x : T) : bool := (x =? n0)%num.

  (** precipitation.py:475-497: type of box i of the aggregated series v. Reading past the end
      raises IndexError; inside the series the four tests may all fail, the type is then dry. *)
  Definition box_type (v : list T) (i : nat) : res nat :=
    let at_ k := nth k v n_nan in
    if rain (at_ i) then
      if Nat.eqb i 0 then
        let* y := getitem v 1 in
        Ok (if rain y then bt_starting else bt_isolated)
      else if Nat.eqb i (length v - 1) then
        Ok (if rain (at_ (i - 1)%nat) then bt_ending else bt_isolated)
      else
        let a := at_ (i - 1)%nat in
        let b := at_ (i + 1)%nat in
        let t := bt_dry in
        let t := if is0 a && is0 b then bt_isolated else t in
        let t := if is0 a && rain b then bt_starting else t in
        let t := if rain a && rain b then bt_enclosed else t in
        let t := if rain a && is0 b then bt_ending else t in
        Ok t
    else Ok bt_dry.

  Fixpoint box_types (v : list T) (is : list nat) : res (list nat) :=
    match is with
    | [] => Ok []
    | i :: r => let* t := box_type v i in let* ts := box_types v r in Ok (t :: ts)
    end.

  (** column [vbtype - 1]; index -1 is the last column *)
  Definition col_of (vb : nat) : nat := match vb with O => 3 | S k => k end%nat.

  Record counts : Type := {
    k_nb : nat -> nat -> T; k_nbxx : nat -> nat -> T;
    k_01 : nat -> nat -> T; k_10 : nat -> nat -> T; k_xx : nat -> nat -> T;
    k_w : nat -> nat -> nat -> T }.
  Definition counts0 : counts :=
    {| k_nb := fun _ _ => n0; k_nbxx := fun _ _ => n0; k_01 := fun _ _ => n0;
       k_10 := fun _ _ => n0; k_xx := fun _ _ => n0; k_w := fun _ _ _ => n0 |}.
  Definition bump (f : nat -> nat -> T) (b t : nat) : nat -> nat -> T :=
    fun b' t' => if Nat.eqb b' b && Nat.eqb t' t then (f b' t' + n1)%num else f b' t'.

  (** precipitation.py:463-464 *)
  Definition wlower (k : nat) : T :=
    nth k [n0; lit 1429 4; lit 2857 4; lit 4286 4; lit 5714 4; lit 7143 4; lit 8571 4] n_nan.
  Definition wupper (k : nat) : T :=
    nth k [lit 1429 4; lit 2857 4; lit 4286 4; lit 5714 4; lit 7143 4; lit 8571 4; n1] n_nan.
  (** precipitation.py:549-552: first class containing w, if any *)
  Definition wclass (w : T) : option nat :=
    find (fun k => (wlower k <? w)%num && (w <=? wupper k)%num) (seq 0 7).

  Definition nabs (x : T) : T := if (x <? n0)%num then n_opp x else x.

  (** precipitation.py:500-553, one pair (r1, r2) with sum v and box type t.
      [inr]: the early return at 547. *)
  Definition examine_pair (meanvol : T) (r1 r2 v : T) (t : nat) (s : counts) : counts + counts :=
    if rain v then
      let b := if (v >? meanvol)%num then 1%nat else 0%nat in
      let c := col_of t in
      let s := {| k_nb := bump (k_nb s) b c; k_nbxx := k_nbxx s; k_01 := k_01 s; k_10 := k_10 s;
                  k_xx := k_xx s; k_w := k_w s |} in
      let s := if rain r1 && is0 r2
               then {| k_nb := k_nb s; k_nbxx := k_nbxx s; k_01 := k_01 s; k_10 := bump (k_10 s) b c;
                       k_xx := k_xx s; k_w := k_w s |} else s in
      let s := if is0 r1 && rain r2
               then {| k_nb := k_nb s; k_nbxx := k_nbxx s; k_01 := bump (k_01 s) b c; k_10 := k_10 s;
                       k_xx := k_xx s; k_w := k_w s |} else s in
      if rain r1 && rain r2 then
        let s := {| k_nb := k_nb s; k_nbxx := bump (k_nbxx s) b c; k_01 := k_01 s; k_10 := k_10 s;
                    k_xx := bump (k_xx s) b c; k_w := k_w s |} in
        let w := (r1 / (r1 + r2))%num in
        if (nabs (r1 + r2 - v) >? lit 1 3)%num then inr s
        else match wclass w with
             | Some k =>
                 inl {| k_nb := k_nb s; k_nbxx := k_nbxx s; k_01 := k_01 s; k_10 := k_10 s;
                        k_xx := k_xx s;
                        k_w := fun k' => if Nat.eqb k' k then bump (k_w s k') b c else k_w s k' |}
             | None => inl s
             end
      else inl s
    else inl s.

  Fixpoint examine (meanvol : T) (data : list T) (vdn : list T) (vb : list nat) (s : counts)
    : counts + counts :=
    match data, vdn, vb with
    | r1 :: r2 :: data', v :: vdn', t :: vb' =>
        match examine_pair meanvol r1 r2 v t s with
        | inl s' => examine meanvol data' vdn' vb' s'
        | inr s' => inr s'
        end
    | _, _, _ => inl s
    end.

  Definition cells : list (nat * nat) :=
    [(0, 0); (0, 1); (0, 2); (0, 3); (1, 0); (1, 1); (1, 2); (1, 3)]%nat.
  Definition any_nan2 (f : nat -> nat -> T) : bool := existsb (fun c => n_isnan (f (fst c) (snd c))) cells.
  Definition any_nan3 (f : nat -> nat -> nat -> T) : bool := existsb (fun k => any_nan2 (f k)) (seq 0 7).

  (** precipitation.py:595-602: [wxx.any()] is a truth value, compared with 1.001 and 0.999 *)
  Definition weight_check_fails (w : nat -> nat -> nat -> T) : bool :=
    let sums b t := fold_left (fun acc k => (acc + w k b t)%num) (seq 0 7) n0 in
    let any := existsb (fun c => negb (is0 (sums (fst c) (snd c)))) cells in
    let x := if any then n1 else n0 in
    (x >? lit 1001 3)%num || (x <? lit 999 3)%num.

  (** precipitation.py:416-604 [aggregate_precipitation]. [pct] is np.percentile(., percentile). *)
  Definition aggregate_precipitation (pct : list T -> res T) (perc : T) (s : series T)
    : res (casc T * series T) :=
    let vdn := pair_sums s in
    let v := values vdn in
    let* meanvol := pct (filter rain v) in                                  (* 469-472 *)
    let* vb := box_types v (seq 0 (length v)) in
    match examine meanvol (values s) v vb counts0 with
    | inr k =>                                                              (* 547 *)
        Ok ({| p01 := k_01 k; p10 := k_10 k; pxx := k_xx k; wxx := k_w k;
               threshold := [meanvol]; percentile := perc |}, vdn)
    | inl k =>
        let c := {| p01 := fun b t => (k_01 k b t / k_nb k b t)%num;        (* 556-558 *)
                    p10 := fun b t => (k_10 k b t / k_nb k b t)%num;
                    pxx := fun b t => (k_xx k b t / k_nb k b t)%num;
                    wxx := fun j b t => (k_w k j b t / k_nbxx k b t)%num;   (* 563-564 *)
                    threshold := [meanvol]; percentile := perc |} in
        let c := if any_nan2 (p01 c) || any_nan2 (p10 c) || any_nan2 (pxx c)
                 then fill_with_sample_data c else c in                     (* 568-579 *)
        let c := if any_nan3 (wxx c) then                                   (* 584-602 *)
                   let w := fun j b t => if n_isnan (wxx c j b t) then (n1 / n_ofZ 7)%num else wxx c j b t in
                   let c' := {| p01 := p01 c; p10 := p10 c; pxx := pxx c; wxx := w;
                                threshold := threshold c; percentile := percentile c |} in
                   if weight_check_fails w then fill_with_sample_data c' else c'
                 else c in
        Ok (c, vdn)
    end.

  (** precipitation.py:606-628 [seasonal_subset]; months = 'all' is [None]. The sort is by time
      stamp; for equal stamps pandas' default sort may order differently. *)
  Fixpoint insert_row (p : Z * T) (l : series T) : series T :=
    match l with [] => [p] | q :: r => if fst p <=? fst q then p :: l else q :: insert_row p r end.
  Definition sort_index (s : series T) : series T := fold_right insert_row [] s.

  Definition seasonal_subset (s : series T) (months : option (list Z)) : res (series T) :=
    let ms := match months with None => map Z.of_nat (seq 1 12) | Some l => l end in
    match ms with
    | [] => Err UnboundLocalError
    | _ => Ok (sort_index (flat_map (fun m => filter (fun p => month_of (fst p) =? m) s) ms))
    end.

  (** ** build_casc on an explicit heap *)

  (** numpy arrays *)
  Inductive arr : Type :=
  | A2 (f : nat -> nat -> T)
  | A3 (f : nat -> nat -> nat -> T)
  | A1 (l : list T).
  (** a CascadeStatistics instance: references to arrays *)
  Record obj : Type := { o01 : nat; o10 : nat; oxx : nat; owxx : nat; othr : nat; operc : T }.
  Record heap : Type := { arrs : list arr; objs : list obj }.

  Definition new_arr (h : heap) (a : arr) : heap * nat :=
    ({| arrs := arrs h ++ [a]; objs := objs h |}, length (arrs h)).
  Definition new_obj (h : heap) (o : obj) : heap * nat :=
    ({| arrs := arrs h; objs := objs h ++ [o] |}, length (objs h)).
  Fixpoint upd {A} (n : nat) (x : A) (l : list A) : list A :=
    match l, n with
    | [], _ => []
    | _ :: r, O => x :: r
    | y :: r, S n => y :: upd n x r
    end.
  Definition set_arr (h : heap) (n : nat) (a : arr) : heap := {| arrs := upd n a (arrs h); objs := objs h |}.
  Definition set_obj (h : heap) (n : nat) (o : obj) : heap := {| arrs := arrs h; objs := upd n o (objs h) |}.
  Definition null_obj : obj := {| o01 := 0; o10 := 0; oxx := 0; owxx := 0; othr := 0; operc := n0 |}.
  Definition get_obj (h : heap) (n : nat) : obj := nth n (objs h) null_obj.
  Definition get2 (h : heap) (n : nat) : nat -> nat -> T :=
    match nth n (arrs h) (A1 []) with A2 f => f | _ => fun _ _ => n_nan end.
  Definition get3 (h : heap) (n : nat) : nat -> nat -> nat -> T :=
    match nth n (arrs h) (A1 []) with A3 f => f | _ => fun _ _ _ => n_nan end.
  Definition get1 (h : heap) (n : nat) : list T :=
    match nth n (arrs h) (A1 []) with A1 l => l | _ => [] end.

  (** an instance with arrays of its own *)
  Definition alloc_casc (h : heap) (c : casc T) : heap * nat :=
    let (h, a) := new_arr h (A2 (p01 c)) in
    let (h, b) := new_arr h (A2 (p10 c)) in
    let (h, x) := new_arr h (A2 (pxx c)) in
    let (h, w) := new_arr h (A3 (wxx c)) in
    let (h, t) := new_arr h (A1 (threshold c)) in
    new_obj h {| o01 := a; o10 := b; oxx := x; owxx := w; othr := t; operc := percentile c |}.

  (** the value of an instance *)
  Definition read_casc (h : heap) (n : nat) : casc T :=
    let o := get_obj h n in
    {| p01 := get2 h (o01 o); p10 := get2 h (o10 o); pxx := get2 h (oxx o); wxx := get3 h (owxx o);
       threshold := get1 h (othr o); percentile := operc o |}.

  (** copy.copy(obj): same array references *)
  Definition copy_obj (h : heap) (n : nat) : heap * nat := new_obj h (get_obj h n).

  (** cascade.py:118-122 [__mul__]: four new arrays are bound to the attributes *)
  Definition heap_mul (h : heap) (n : nat) (f : T) : heap :=
    let c := casc_mul (read_casc h n) f in
    let o := get_obj h n in
    let (h, a) := new_arr h (A2 (p01 c)) in
    let (h, b) := new_arr h (A2 (p10 c)) in
    let (h, x) := new_arr h (A2 (pxx c)) in
    let (h, w) := new_arr h (A3 (wxx c)) in
    set_obj h n {| o01 := a; o10 := b; oxx := x; owxx := w; othr := othr o; operc := operc o |}.

  (** cascade.py:111-116 [__add__]: three new arrays, but wxx is written in place *)
  Definition heap_add (h : heap) (n m : nat) : heap :=
    let c := casc_add (read_casc h n) (read_casc h m) in
    let o := get_obj h n in
    let (h, a) := new_arr h (A2 (p01 c)) in
    let (h, b) := new_arr h (A2 (p10 c)) in
    let (h, x) := new_arr h (A2 (pxx c)) in
    let h := set_arr h (owxx o) (A3 (wxx c)) in
    set_obj h n {| o01 := a; o10 := b; oxx := x; owxx := owxx o; othr := othr o; operc := operc o |}.

  (** precipitation.py:678-687, the loop over levels. [total] is casc_opt. Returns heap, list of
      copies, thresholds and count. *)
  Fixpoint levels_loop (pct : list T -> res T) (perc : T) (L : nat) (h : heap) (total : nat)
           (vdn : series T) (copies : list nat) (thr : list T) (count : Z)
    : res (heap * list nat * list T * Z) :=
    match L with
    | O => Ok (h, copies, thr, count)
    | S L =>
        let* (c, vdn) := aggregate_precipitation pct perc vdn in
        let (h, ci) := alloc_casc h c in
        let* t0 := getitem (threshold c) 0 in
        let (h, cp) := copy_obj h ci in
        let n := Z.of_nat (length vdn) in
        let h := heap_mul h ci (n_ofZ n) in
        let h := heap_add h total ci in
        levels_loop pct perc L h total vdn (copies ++ [cp]) (thr ++ [t0]) (count + n)
    end.

  (** what build_casc returns per season: one instance, or one per level *)
  Inductive season_stats : Type := SOne (o : nat) | SList (os : list nat).

  Definition fillna0 (s : series T) : series T :=
    map (fun p => (fst p, if n_isnan (snd p) then n0 else snd p)) s.

  (** precipitation.py:661-700, one season; [obs] is the caller's precipitation column.
      With no sum at all (hourly=False, level=0) the division at 688 raises. *)
  Definition build_season (pct : list T -> res T) (perc : T) (L : nat) (avg : bool)
             (h : heap) (obs : series T) (months : option (list Z))
    : res (heap * series T * season_stats) :=
    let* vdn := seasonal_subset obs months in                               (* 662 *)
    let obs := fillna0 obs in                                               (* 663 *)
    let (h, total) := alloc_casc h casc_init in                             (* 665 *)
    let o := get_obj h total in
    let h := set_obj h total {| o01 := o01 o; o10 := o10 o; oxx := oxx o; owxx := owxx o;
                                othr := othr o; operc := perc |} in         (* 666 *)
    let* (h, copies, thr, count) := levels_loop pct perc L h total vdn [] [] 0 in
    if count =? 0 then Err ZeroDivisionError else
    let h := heap_mul h total (n1 / n_ofZ count)%num in                     (* 688 *)
    let o := get_obj h total in
    let (h, t) := new_arr h (A1 thr) in
    let h := set_obj h total {| o01 := o01 o; o10 := o10 o; oxx := oxx o; owxx := owxx o;
                                othr := t; operc := operc o |} in           (* 689 *)
    Ok (h, obs, if avg then SOne total else SList copies).

  Fixpoint build_seasons (pct : list T -> res T) (perc : T) (L : nat) (avg : bool)
             (h : heap) (obs : series T) (months : list (option (list Z))) (acc : list season_stats)
    : res (heap * series T * list season_stats) :=
    match months with
    | [] => Ok (h, obs, acc)
    | m :: ms =>
        let* (h, obs, st) := build_season pct perc L avg h obs m in
        build_seasons pct perc L avg h obs ms (acc ++ [st])
    end.

  (** precipitation.py:631-702 [build_casc]; months=None means one season with all months *)
  Definition build_casc (pct : list T -> res T) (perc : T) (hourly : bool) (level : nat) (avg : bool)
             (months : option (list (option (list Z)))) (h : heap) (obs : series T)
    : res (heap * series T * list season_stats) :=
    build_seasons pct perc (if hourly then 5%nat else level) avg h obs
      (match months with None => [None] | Some l => l end) [].
End Generic.
Arguments arr T : clear implicits.
Arguments heap T : clear implicits.
Arguments obj T : clear implicits.
