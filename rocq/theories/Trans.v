(** Elementary functions on the exact extended reals, with numpy's conventions for arguments
    outside the domain (NaN) and for infinities. *)
From Coq Require Import ZArith Reals List Bool Lra.
From Verif Require Import Num.
Import ListNotations.
Open Scope R_scope.

Definition lift1 (f : R -> R) (x : xr) : xr := match x with Fin r => Fin (f r) | _ => NaN end.

Definition xsin : xr -> xr := lift1 sin.
Definition xcos : xr -> xr := lift1 cos.
(** the poles of tan are not represented (tan is total here); no double is a pole *)
Definition xtan : xr -> xr := lift1 tan.
Definition xpi : xr := Fin PI.
Definition deg2rad (x : xr) : xr := (x * (xpi / n_ofZ 180))%num.

Definition xexp (x : xr) : xr :=
  match x with Fin r => Fin (exp r) | PInf => PInf | NInf => Fin 0 | NaN => NaN end.
Definition xln (x : xr) : xr :=
  match x with
  | Fin r => if Rltb 0 r then Fin (ln r) else if Reqb r 0 then NInf else NaN
  | PInf => PInf
  | _ => NaN
  end.
Definition xacos (x : xr) : xr :=
  match x with Fin r => if Rleb (-1) r && Rleb r 1 then Fin (acos r) else NaN | _ => NaN end.
Definition xasin (x : xr) : xr :=
  match x with Fin r => if Rleb (-1) r && Rleb r 1 then Fin (asin r) else NaN | _ => NaN end.

(** x ** y. A negative base with a fractional exponent is NaN. Simplification: a base of -inf,
    and infinite exponents, are NaN. *)
Definition xpow (x y : xr) : xr :=
  match x, y with
  | Fin a, Fin b =>
      if Reqb b 0 then Fin 1
      else if Rltb 0 a then Fin (Rpower a b)
      else if Reqb a 0 then (if Rltb 0 b then Fin 0 else PInf)
      else if Reqb b (IZR (Int_part b)) then Fin (powerRZ a (Int_part b)) else NaN
  | PInf, Fin b => if Reqb b 0 then Fin 1 else if Rltb 0 b then PInf else Fin 0
  | _, Fin b => if Reqb b 0 then Fin 1 else NaN
  | _, _ => NaN
  end.

(** round half to even *)
Definition Rround (r : R) : Z :=
  let k := Int_part r in
  if Rltb (r - IZR k) (1 / 2) then k
  else if Rltb (1 / 2) (r - IZR k) then (k + 1)%Z
  else if Z.even k then k else (k + 1)%Z.
Definition xround (x : xr) : xr := match x with Fin r => Fin (IZR (Rround r)) | _ => x end.

Lemma xcos_Fin r : xcos (Fin r) = Fin (cos r). Proof. reflexivity. Qed.
Lemma xsin_Fin r : xsin (Fin r) = Fin (sin r). Proof. reflexivity. Qed.
Lemma xexp_Fin r : xexp (Fin r) = Fin (exp r). Proof. reflexivity. Qed.
Lemma xln_Fin r : 0 < r -> xln (Fin r) = Fin (ln r).
Proof. intro H. cbn. destruct (Rltb_spec 0 r); [reflexivity|contradiction]. Qed.
Lemma xacos_Fin r : -1 <= r <= 1 -> xacos (Fin r) = Fin (acos r).
Proof. intro H. cbn. destruct (Rleb_spec (-1) r), (Rleb_spec r 1); try reflexivity; exfalso; lra. Qed.
Lemma deg2rad_Fin r : deg2rad (Fin r) = Fin (r * (PI / 180)).
Proof. unfold deg2rad, xpi. cbn [n_ofZ Num_xr]. rewrite xdiv_Fin by lra. reflexivity. Qed.
Lemma nofZ_xr z : (n_ofZ z : xr) = Fin (IZR z). Proof. reflexivity. Qed.
