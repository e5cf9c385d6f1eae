(** Model of StationStatistics.to_json / from_json (stationstatistics.py:194-288) and of
    CascadeStatistics.from_dict / __eq__ / __ne__ (cascade.py:124-153).

    JSON texts are represented by their value trees: json.dumps and json.load are taken as inverse to each
    other on trees (Python prints floats so that they are read back exactly; NaN and infinities included). *)
From Coq Require Import String ZArith Reals List Bool DecimalString.
From Flocq Require Import Core.
From Verif Require Import Py Num Series Frame CascadeModel PrecipModel UtilModel2 HumModel RadModel StationModel.
Import ListNotations.
Open Scope string_scope.
Open Scope Z_scope.
Open Scope list_scope.

(** ** CascadeStatistics.__eq__ and __ne__ *)
Section Equality.
  Context {T : Type} {N : Num T}.
  (** [np.array_equal] of two tables of the fixed shapes and of two vectors *)
  Definition eq2 (f g : nat -> nat -> T) : bool :=
    forallb (fun b => forallb (fun t => (f b t =? g b t)%num) (seq 0 4)) (seq 0 2).
  Definition eq3 (f g : nat -> nat -> nat -> T) : bool := forallb (fun k => eq2 (f k) (g k)) (seq 0 7).
  Fixpoint eq1 (a b : list T) : bool :=
    match a, b with [], [] => true | x :: a, y :: b => (x =? y)%num && eq1 a b | _, _ => false end.
  (** cascade.py:124-132 *)
  Definition casc_eqb (s o : casc T) : bool :=
    eq2 (p01 s) (p01 o) && eq2 (p10 s) (p10 o) && eq2 (pxx s) (pxx o) && eq3 (wxx s) (wxx o)
    && eq1 (threshold s) (threshold o) && (percentile s =? percentile o)%num.
  (** cascade.py:134-135 *)
  Definition casc_neb (s o : casc T) : bool := negb (casc_eqb s o).
End Equality.

(** ** JSON values; [JCasc] is what the object hook turns a dictionary into (never part of a text) *)
Inductive json : Type :=
| JNull
| JBool (b : bool)
| JInt (z : Z)
| JNum (x : xr)
| JStr (s : string)
| JArr (l : list json)
| JObj (kv : list (string * json))
| JCasc (a01 a10 axx awxx athr perc : json).

(** integer labels as object keys and back *)
Definition key (z : Z) : string := NilZero.string_of_int (Z.to_int z).
Definition key_inv (s : string) : option Z := option_map Z.of_int (NilZero.int_of_string s).

(** ** Writing *)
(** a number in a pandas table: ten decimals, null when it is not finite (pandas' to_json) *)
Definition ten_decimals (r : R) : R := (IZR (ZnearestE (r * 10000000000)) / 10000000000)%R.
Definition enc_cell (x : xr) : json := match x with Fin r => JNum (Fin (ten_decimals r)) | _ => JNull end.
(** Series.to_json and the columns of DataFrame.to_json: labels must be unique *)
Definition enc_column (s : list (Z * xr)) : res json :=
  if has_dup (map fst s) then Err ValueError
  else Ok (JObj (map (fun p => (key (fst p), enc_cell (snd p))) s)).
Definition enc_course (c : course xr) : res json :=
  if has_dup (map fst c) then Err ValueError
  else let* cols := mapM (fun p => let* j := enc_column (snd p) in Ok (key (fst p), j)) c in Ok (JObj cols).
Definition enc_pairs (n1 n2 : string) (t : list (Z * (xr * xr))) : res json :=
  let* j1 := enc_column (map (fun p => (fst p, fst (snd p))) t) in
  let* j2 := enc_column (map (fun p => (fst p, snd (snd p))) t) in
  Ok (JObj [(n1, j1); (n2, j2)]).
(** a Series with a MultiIndex: 205-206 [reset_index], rows are numbered *)
Definition numbered {A} (f : A -> json) (l : list A) : json :=
  JObj (map (fun p => (key (Z.of_nat (fst p)), f (snd p))) (combine (seq 0 (length l)) l)).
Definition enc_mhp (t : list (mhp_key * xr)) : json :=
  JObj [("level_0", numbered (fun p => JInt (fst (fst (fst p)))) t);
        ("level_1", numbered (fun p => JInt (snd (fst (fst p)))) t);
        ("level_2", numbered (fun p => JBool (snd (fst p))) t);
        ("hum", numbered (fun p => enc_cell (snd p)) t)].
(** 209-212 arrays are written as nested lists, CascadeStatistics as their __dict__ *)
Definition enc_table (f : nat -> nat -> xr) : json :=
  JArr (map (fun b => JArr (map (fun t => JNum (f b t)) (seq 0 4))) (seq 0 2)).
Definition enc_casc (c : casc xr) : json :=
  JObj [("p01", enc_table (p01 c)); ("p10", enc_table (p10 c)); ("pxx", enc_table (pxx c));
        ("wxx", JArr (map (fun k => enc_table (wxx c k)) (seq 0 7)));
        ("threshold", JArr (map JNum (threshold c))); ("percentile", JNum (percentile c))].
Definition enc_arg (a : casc_arg xr) : res json :=
  match a with
  | COne c => Ok (enc_casc c)
  | CList l => Ok (JArr (map enc_casc l))
  | COther => Err TypeError                                                 (* 213-214 *)
  end.
Definition enc_months (m : option (list Z)) : json :=
  match m with Some l => JArr (map JInt l) | None => JNull end.
Definition enc_opt {A} (f : A -> res json) (o : option A) : res json :=
  match o with Some a => f a | None => Ok JNull end.
Definition enc_num (x : xr) : res json := Ok (JNum x).

(** stationstatistics.py:194-224 [to_json] (the tree; 220-224 return it as text or write it to a file) *)
Definition to_json (s : sstats) : res json :=
  let* delta := enc_opt enc_column (q_delta s) in
  let* course := enc_opt enc_course (q_tcourse s) in
  let* a := enc_opt enc_num (q_wind_a s) in
  let* b := enc_opt enc_num (q_wind_b s) in
  let* sh := enc_opt enc_num (q_wind_shift s) in
  let months := match q_months s with Some l => JArr (map enc_months l) | None => JNull end in
  let* stats := enc_opt (fun l => let* l := mapM enc_arg l in Ok (JArr l)) (q_casc s) in
  let* a0 := enc_opt enc_num (q_a0 s) in
  let* a1 := enc_opt enc_num (q_a1 s) in
  let kr := match q_kr s with Some z => JInt z | None => JNull end in
  let mhp := match q_mhp s with Some t => enc_mhp t | None => JNull end in
  let* ang := enc_pairs "a" "b" (g_angstroem (q_glob s)) in
  let* bc := enc_pairs "a" "c" (g_bristcamp (q_glob s)) in
  let* gc := enc_opt enc_course (g_course (q_glob s)) in
  Ok (JObj [("temp", JObj [("max_delta", delta); ("mean_course", course)]);
            ("wind", JObj [("a", a); ("b", b); ("t_shift", sh)]);
            ("precip", JObj [("months", months); ("stats", stats)]);
            ("hum", JObj [("a0", a0); ("a1", a1); ("kr", kr); ("month_hour_precip_mean", mhp)]);
            ("glob", JObj [("angstroem", ang); ("bristcamp", bc); ("mean_course", gc)])]).

(** ** Reading *)
(** content of a kind to_json never writes: the model stops with TypeError there (not a claim about the code) *)
Definition foreign {A} : res A := Err TypeError.

(** [np.array(x).shape]; [None]: ragged nested lists (numpy >= 1.24 raises ValueError) *)
Fixpoint same_dims (a b : list nat) : bool :=
  match a, b with [], [] => true | x :: a, y :: b => Nat.eqb x y && same_dims a b | _, _ => false end.
Fixpoint np_shape (j : json) : option (list nat) :=
  match j with
  | JArr l =>
      (fix go (l : list json) (n : nat) (s : option (list nat)) {struct l} : option (list nat) :=
         match l with
         | [] => match s with Some d => Some (n :: d) | None => Some [n] end
         | x :: r =>
             match np_shape x with
             | Some d => match s with
                         | None => go r (S n) (Some d)
                         | Some d0 => if same_dims d0 d then go r (S n) (Some d0) else None
                         end
             | None => None
             end
         end) l 0%nat None
  | _ => Some []
  end.
Definition np_array (j : json) : res json :=
  match np_shape j with Some _ => Ok j | None => Err ValueError end.
Definition has_shape (dims : list nat) (j : json) : bool :=
  match np_shape j with Some d => same_dims dims d | None => false end.
Definition item (k : string) (kv : list (string * json)) : res json :=
  match assoc k kv with Some v => Ok v | None => Err KeyError end.

(** cascade.py:137-153 [from_dict] *)
Definition from_dict (d : list (string * json)) : res json :=
  let* a := item "p01" d in let* a := np_array a in
  let* b := item "p10" d in let* b := np_array b in
  let* x := item "pxx" d in let* x := np_array x in
  let* w := item "wxx" d in let* w := np_array w in
  let* t := item "threshold" d in let* t := np_array t in
  let* p := item "percentile" d in
  if has_shape [2; 4]%nat a && has_shape [2; 4]%nat b && has_shape [2; 4]%nat x && has_shape [7; 2; 4]%nat w
  then Ok (JCasc a b x w t p) else Err AssertionError.

(** stationstatistics.py:236-240 [json_decoder] *)
Definition has_key (k : string) (kv : list (string * json)) : bool :=
  match assoc k kv with Some _ => true | None => false end.
Definition json_decoder (d : list (string * json)) : res json :=
  if has_key "p01" d && has_key "pxx" d then from_dict d else Ok (JObj d).
(** 242-243 [json.load(f, object_hook=json_decoder)]: the hook is applied from the inside out *)
Fixpoint load (j : json) : res json :=
  match j with
  | JArr l =>
      let* l := (fix go (l : list json) : res (list json) :=
                   match l with [] => Ok [] | x :: r => let* x := load x in let* r := go r in Ok (x :: r) end) l in
      Ok (JArr l)
  | JObj kv =>
      let* kv := (fix go (l : list (string * json)) : res (list (string * json)) :=
                    match l with [] => Ok [] | (k, x) :: r => let* x := load x in let* r := go r in Ok ((k, x) :: r) end) kv in
      json_decoder kv
  | _ => Ok j
  end.

Definition num_of (j : json) : res xr :=
  match j with JNum x => Ok x | JInt z => Ok (Fin (IZR z)) | _ => foreign end.
Definition cell_of (j : json) : res xr := match j with JNull => Ok NaN | _ => num_of j end.
Definition int_of (j : json) : res Z := match j with JInt z => Ok z | _ => foreign end.
Definition bool_of (j : json) : res bool := match j with JBool b => Ok b | _ => foreign end.
Definition list_of (j : json) : res (list json) := match j with JArr l => Ok l | _ => foreign end.
Definition obj_of (j : json) : res (list (string * json)) := match j with JObj kv => Ok kv | _ => foreign end.
Definition label_of (s : string) : res Z := match key_inv s with Some z => Ok z | None => foreign end.
Definition opt_of {A} (f : json -> res A) (j : json) : res (option A) :=
  match j with JNull => Ok None | _ => let* a := f j in Ok (Some a) end.

(** [sort_index()] *)
Fixpoint insert {A} (p : Z * A) (l : list (Z * A)) : list (Z * A) :=
  match l with
  | [] => [p]
  | q :: r => if fst p <=? fst q then p :: l else q :: insert p r
  end.
Definition sort_index {A} (l : list (Z * A)) : list (Z * A) := fold_right insert [] l.

(** [pd.read_json(..., typ='series')]: integer labels; a series of missing values and numbers above 31536000
    only is taken for time stamps (its values are no numbers any more: NaN here) *)
Definition is_stamp (x : xr) : bool := match x with Fin r => Rltb 31536000 r | PInf => true | NInf => false | NaN => true end.
Definition read_series (j : json) : res (list (Z * xr)) :=
  let* kv := obj_of j in
  let* rows := mapM (fun p => let* t := label_of (fst p) in let* x := cell_of (snd p) in Ok (t, x)) kv in
  Ok (if forallb (fun p => is_stamp (snd p)) rows then map (fun p => (fst p, NaN)) rows else rows).

(** [pd.read_json(..., typ='frame').sort_index()]: named columns over the union of their integer labels *)
Fixpoint union (a b : list Z) : list Z :=
  match b with [] => a | t :: r => if mem t a then union a r else union (a ++ [t]) r end.
Definition read_frame (j : json) : res (list (string * list (Z * json))) :=
  let* cols := obj_of j in
  let* cols := mapM (fun c => let* kv := obj_of (snd c) in
                              let* rows := mapM (fun p => let* t := label_of (fst p) in Ok (t, snd p)) kv in
                              Ok (fst c, rows)) cols in
  let labels := fold_left (fun acc c => union acc (map fst (snd c))) cols [] in
  Ok (map (fun c => (fst c, sort_index (map (fun t => (t, match lookup t (snd c) with Some v => v | None => JNull end)) labels))) cols).
Definition num_column (c : list (Z * json)) : res (list (Z * xr)) :=
  mapM (fun p => let* x := cell_of (snd p) in Ok (fst p, x)) c.
(** a course: integer column names; [frame[np.arange(1, 12 + 1)]] needs all twelve *)
Definition twelve : list Z := map Z.of_nat (seq 1 12).
Definition select_months (c : course xr) : res (course xr) :=
  mapM (fun m => match lookup m c with Some col => Ok (m, col) | None => Err KeyError end) twelve.
Definition read_course (j : json) : res (course xr) :=
  let* f := read_frame j in
  let* c := mapM (fun c => let* m := label_of (fst c) in let* v := num_column (snd c) in Ok (m, v)) f in
  select_months c.
Definition read_pairs (n1 n2 : string) (j : json) : res (list (Z * (xr * xr))) :=
  let* f := read_frame j in
  match assoc n1 f, assoc n2 f with
  | Some c1, Some c2 =>
      let* v1 := num_column c1 in
      let* v2 := num_column c2 in
      Ok (map (fun p => (fst (fst p), (snd (fst p), snd (snd p)))) (combine v1 v2))
  | _, _ => foreign
  end.
(** 269-277: [set_index(['level_0','level_1','level_2'])], [squeeze()], [rename_axis]; one single row is
    squeezed to a number, which has no rename_axis *)
Definition read_mhp (j : json) : res (list (mhp_key * xr)) :=
  let* f := read_frame j in
  match assoc "level_0" f, assoc "level_1" f, assoc "level_2" f with
  | Some c0, Some c1, Some c2 =>
      let* m := mapM (fun p => int_of (snd p)) c0 in
      let* h := mapM (fun p => int_of (snd p)) c1 in
      let* w := mapM (fun p => bool_of (snd p)) c2 in
      match filter (fun c => negb (String.eqb (fst c) "level_0" || String.eqb (fst c) "level_1" || String.eqb (fst c) "level_2")) f with
      | [(_, c)] =>
          let* v := num_column c in
          match v with
          | [_] => Err AttributeError
          | _ => Ok (combine (combine (combine m h) w) (map snd v))
          end
      | _ => foreign
      end
  | _, _, _ => Err KeyError
  end.

(** a CascadeStatistics object as the tables the rest of the model uses *)
Definition elem (j : json) (i : nat) : json := match j with JArr l => nth i l JNull | _ => JNull end.
Definition val (j : json) : xr := match num_of j with Ok x => x | Err _ => NaN end.
Definition casc_of (j : json) : res (casc xr) :=
  match j with
  | JCasc a b x w t p =>
      let* t := list_of t in
      let* t := mapM num_of t in
      let* p := num_of p in
      Ok {| p01 := fun i k => val (elem (elem a i) k);
            p10 := fun i k => val (elem (elem b i) k);
            pxx := fun i k => val (elem (elem x i) k);
            wxx := fun n i k => val (elem (elem (elem w n) i) k);
            threshold := t; percentile := p |}
  | _ => foreign
  end.
Definition arg_of (j : json) : res (casc_arg xr) :=
  match j with
  | JArr l => let* l := mapM casc_of l in Ok (CList l)
  | _ => let* c := casc_of j in Ok (COne c)
  end.
Definition months_of (j : json) : res (option (list Z)) :=
  opt_of (fun j => let* l := list_of j in mapM int_of l) j.

(** [bunch.update(d)]: entries that are absent keep their initial value *)
Definition entry {A} (k : string) (kv : list (string * json)) (init : A) (f : json -> res A) : res A :=
  match assoc k kv with Some j => f j | None => Ok init end.

(** stationstatistics.py:227-288 [from_json] *)
Definition from_json (text : json) : res sstats :=
  let* d := load text in                                                     (* 242-243 *)
  let* top := obj_of d in
  let* temp := item "temp" top in let* temp := obj_of temp in                (* 247 *)
  let* hum := item "hum" top in let* hum := obj_of hum in                    (* 248 *)
  let* precip := item "precip" top in let* precip := obj_of precip in        (* 249 *)
  let* wind := item "wind" top in let* wind := obj_of wind in                (* 250 *)
  let* glob := item "glob" top in let* glob := obj_of glob in                (* 251 *)
  let* delta := entry "max_delta" temp None
                  (opt_of (fun j => let* s := read_series j in Ok (sort_index s))) in   (* 253-257 *)
  let* tc := entry "mean_course" temp None (opt_of read_course) in           (* 259-267 *)
  let* mhp := entry "month_hour_precip_mean" hum None (opt_of read_mhp) in   (* 269-277 *)
  let* ang := entry "angstroem" glob (g_angstroem init_glob) (read_pairs "a" "b") in   (* 279-283 *)
  let* bc := entry "bristcamp" glob (g_bristcamp init_glob) (read_pairs "a" "c") in
  let* gc := entry "mean_course" glob None (opt_of read_course) in           (* 279-286 *)
  (* entries taken over as they are *)
  let* a0 := entry "a0" hum None (opt_of num_of) in
  let* a1 := entry "a1" hum None (opt_of num_of) in
  let* kr := entry "kr" hum None (opt_of int_of) in
  let* months := entry "months" precip None (opt_of (fun j => let* l := list_of j in mapM months_of l)) in
  let* stats := entry "stats" precip None (opt_of (fun j => let* l := list_of j in mapM arg_of l)) in
  let* wa := entry "a" wind None (opt_of num_of) in
  let* wb := entry "b" wind None (opt_of num_of) in
  let* ws := entry "t_shift" wind None (opt_of num_of) in
  Ok {| q_lon := None; q_lat := None; q_tz := None; q_data := None;          (* 245 cls() *)
        q_wind_a := wa; q_wind_b := wb; q_wind_shift := ws;
        q_months := months; q_casc := stats; q_a0 := a0; q_a1 := a1; q_kr := kr; q_mhp := mhp;
        q_delta := delta; q_tcourse := tc;
        q_glob := {| g_course := gc; g_angstroem := ang; g_bristcamp := bc |} |}.
