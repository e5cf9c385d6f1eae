(** How far an observation is continued by [interpolate]. *)
From Coq Require Import ZArith.
From Verif Require Import InterpModel.
Open Scope Z_scope.

(** no limit, or at most [limit] hours *)
Definition within (limit : option Z) (k : Z) : bool := match limit with None => true | Some m => k <=? m end.
(** values are continued to [k] hours after an observation / begin [k] hours before one *)
Definition forward_ok (dir : direction) (limit : option Z) (k : Z) : bool := match dir with Backward => false | _ => within limit k end.
Definition backward_ok (dir : direction) (limit : option Z) (k : Z) : bool := match dir with Forward => false | _ => within limit k end.
