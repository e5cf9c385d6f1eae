(** The numbers printed in the source of the library (cascade.py:46-48, 57-109), as real numbers.
    Written by a script from the text of that file, independently of the model's tables. *)
From Coq Require Import List Reals.
Import ListNotations.
Open Scope R_scope.

(** row: volume class (0 below, 1 above the threshold); column: starting, enclosed, ending, isolated *)
Definition cell (rows : list (list R)) (b t : nat) : R := nth t (nth b rows []) 0.

Definition shipped_p01 : nat -> nat -> R := cell
  [[0.576724636119866; 0.238722774405744; 0.166532122130638; 0.393474644666218];
   [0.303345245644811; 0.0490956843857575; 0.0392403031072856; 0.228441890034704]].
Definition shipped_p10 : nat -> nat -> R := cell
  [[0.158217002255554; 0.256581140990052; 0.557852226779526; 0.422638238585814];
   [0.0439831163244427; 0.0474928027621488; 0.303675296728195; 0.217512052135178]].
Definition shipped_pxx : nat -> nat -> R := cell
  [[0.265058361624580; 0.504696084604205; 0.275615651089836; 0.183887116747968];
   [0.652671638030746; 0.903411512852094; 0.657084400164519; 0.554046057830118]].
(** weight class, row, column *)
Definition shipped_w (k : nat) : nat -> nat -> R := cell (nth k
  [[[0.188389148850583; 0.0806836453984190; 0.0698113025807722; 0.0621499191745602];
    [0.240993281622128; 0.0831019646519721; 0.0415130545715575; 0.155284541403192]];
   [[0.190128959522795; 0.129220679033862; 0.0932213021787505; 0.193080698516532];
    [0.196379692358065; 0.108549414860949; 0.0592714297292217; 0.0421945385836429]];
   [[0.163043672107111; 0.152063537378127; 0.102823783410167; 0.0906028835221283];
    [0.186579466868095; 0.189705690316132; 0.0990207345993082; 0.107831389238912]];
   [[0.197765724699431; 0.220046257566978; 0.177876233348082; 0.261288786454262];
    [0.123823472714948; 0.220514673922285; 0.102486496386323; 0.101975538893918]];
   [[0.114435243444815; 0.170857634762767; 0.177327072603662; 0.135362730582518];
    [0.0939211776723413; 0.174291820501902; 0.125275822078525; 0.150842841725936]];
   [[0.0988683809545079; 0.152323481100248; 0.185606883566286; 0.167242856061538];
    [0.0760275616817939; 0.127275603247149; 0.202466168603738; 0.186580243138018]];
   [[0.0473688704207573; 0.0948047647595988; 0.193333422312280; 0.0902721256884624];
    [0.0822753470826286; 0.0965608324996108; 0.369966294031327; 0.255290907016382]]] []).
Definition initial_thresholds : list R := [1.67093133; 2.46694444; 3.66730902; 5.39878419; 8.04924471].

(** sum of the seven weights of a cell *)
Definition weight_sum (w : nat -> nat -> nat -> R) (b t : nat) : R :=
  w 0%nat b t + w 1%nat b t + w 2%nat b t + w 3%nat b t + w 4%nat b t + w 5%nat b t + w 6%nat b t.
