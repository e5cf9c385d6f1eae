(** Model of melodist/cascade.py. *)
From Coq Require Import ZArith List Bool.
From Verif Require Import Py Num.
Import ListNotations.
Open Scope Z_scope.

(** cascade.py:29-34 [BoxTypes]: dry, starting, enclosed, ending, isolated = range(5) *)
Definition bt_dry : nat := 0.
Definition bt_starting : nat := 1.
Definition bt_enclosed : nat := 2.
Definition bt_ending : nat := 3.
Definition bt_isolated : nat := 4.

Section Generic.
  Context {T : Type} {N : Num T}.

  (** cascade.py:37-50 [CascadeStatistics]: (2,4) tables, a (7,2,4) table, a threshold vector.
      A table is represented by its indexing function; only indices inside the shape are used.
      [percentile] is kept as a number. *)
  Record casc : Type := {
    p01 : nat -> nat -> T;
    p10 : nat -> nat -> T;
    pxx : nat -> nat -> T;
    wxx : nat -> nat -> nat -> T;
    threshold : list T;
    percentile : T
  }.

  (** table given by literal rows *)
  Definition tab2 (rows : list (list T)) : nat -> nat -> T :=
    fun b t => nth t (nth b rows []) n_nan.
  Definition tab3 (rows : list (list (list T))) : nat -> nat -> nat -> T :=
    fun k => tab2 (nth k rows []).

  (** cascade.py:43-50 [__init__] *)
  Definition casc_init : casc := {|
    p01 := fun _ _ => n0; p10 := fun _ _ => n0; pxx := fun _ _ => n0;
    wxx := fun _ _ _ => n0;
    threshold := [lit 167093133 8; lit 246694444 8; lit 366730902 8; lit 539878419 8; lit 804924471 8];
    percentile := n_ofZ 50 |}.

  (** cascade.py:57-62 *)
  Definition sample_p01 : nat -> nat -> T := tab2
    [[lit 576724636119866 15; lit 238722774405744 15; lit 166532122130638 15; lit 393474644666218 15];
     [lit 303345245644811 15; lit 490956843857575 16; lit 392403031072856 16; lit 228441890034704 15]].
  (** cascade.py:64-69 *)
  Definition sample_p10 : nat -> nat -> T := tab2
    [[lit 158217002255554 15; lit 256581140990052 15; lit 557852226779526 15; lit 422638238585814 15];
     [lit 439831163244427 16; lit 474928027621488 16; lit 303675296728195 15; lit 217512052135178 15]].
  (** cascade.py:71-76 *)
  Definition sample_pxx : nat -> nat -> T := tab2
    [[lit 265058361624580 15; lit 504696084604205 15; lit 275615651089836 15; lit 183887116747968 15];
     [lit 652671638030746 15; lit 903411512852094 15; lit 657084400164519 15; lit 554046057830118 15]].
  (** cascade.py:78-109 *)
  Definition sample_wxx : nat -> nat -> nat -> T := tab3
    [[[lit 188389148850583 15; lit 806836453984190 16; lit 698113025807722 16; lit 621499191745602 16];
      [lit 240993281622128 15; lit 831019646519721 16; lit 415130545715575 16; lit 155284541403192 15]];
     [[lit 190128959522795 15; lit 129220679033862 15; lit 932213021787505 16; lit 193080698516532 15];
      [lit 196379692358065 15; lit 108549414860949 15; lit 592714297292217 16; lit 421945385836429 16]];
     [[lit 163043672107111 15; lit 152063537378127 15; lit 102823783410167 15; lit 906028835221283 16];
      [lit 186579466868095 15; lit 189705690316132 15; lit 990207345993082 16; lit 107831389238912 15]];
     [[lit 197765724699431 15; lit 220046257566978 15; lit 177876233348082 15; lit 261288786454262 15];
      [lit 123823472714948 15; lit 220514673922285 15; lit 102486496386323 15; lit 101975538893918 15]];
     [[lit 114435243444815 15; lit 170857634762767 15; lit 177327072603662 15; lit 135362730582518 15];
      [lit 939211776723413 16; lit 174291820501902 15; lit 125275822078525 15; lit 150842841725936 15]];
     [[lit 988683809545079 16; lit 152323481100248 15; lit 185606883566286 15; lit 167242856061538 15];
      [lit 760275616817939 16; lit 127275603247149 15; lit 202466168603738 15; lit 186580243138018 15]];
     [[lit 473688704207573 16; lit 948047647595988 16; lit 193333422312280 15; lit 902721256884624 16];
      [lit 822753470826286 16; lit 965608324996108 16; lit 369966294031327 15; lit 255290907016382 15]]].

  (** cascade.py:52-109 [fill_with_sample_data]: replaces the four tables, keeps threshold and percentile *)
  Definition fill_with_sample_data (c : casc) : casc := {|
    p01 := sample_p01; p10 := sample_p10; pxx := sample_pxx; wxx := sample_wxx;
    threshold := threshold c; percentile := percentile c |}.

  (** cascade.py:111-116 [__add__] (in place: returns the new content of self) *)
  Definition casc_add (s o : casc) : casc := {|
    p01 := fun b t => (p01 s b t + p01 o b t)%num;
    p10 := fun b t => (p10 s b t + p10 o b t)%num;
    pxx := fun b t => (pxx s b t + pxx o b t)%num;
    wxx := fun k b t => (wxx s k b t + wxx o k b t)%num;
    threshold := threshold s; percentile := percentile s |}.

  (** cascade.py:118-122 [__mul__] (in place: returns the new content of self) *)
  Definition casc_mul (s : casc) (f : T) : casc := {|
    p01 := fun b t => (p01 s b t * f)%num;
    p10 := fun b t => (p10 s b t * f)%num;
    pxx := fun b t => (pxx s b t * f)%num;
    wxx := fun k b t => (wxx s k b t * f)%num;
    threshold := threshold s; percentile := percentile s |}.
End Generic.
Arguments casc T : clear implicits.
