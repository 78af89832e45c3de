(** Extended reals with nan: the values of Python floats and numpy scalars, without rounding.

    Simplifications: no rounding, no overflow, one zero (so dividing a finite number by zero takes the sign of
    the numerator). *)
From Coq Require Import List Bool Reals Lra.
From Verif Require Import Base.
Import ListNotations.
Open Scope R_scope.

Inductive xr : Type := Fin (r : R) | PInf | NInf | NaN.

Definition Rltb (a b : R) : bool := if Rlt_dec a b then true else false.
Definition Rleb (a b : R) : bool := if Rle_dec a b then true else false.
Definition Reqb (a b : R) : bool := if Req_EM_T a b then true else false.

Lemma Reqb_spec a b : reflect (a = b) (Reqb a b).
Proof. unfold Reqb. destruct (Req_EM_T a b); constructor; auto. Qed.
Lemma Rltb_spec a b : reflect (a < b) (Rltb a b).
Proof. unfold Rltb. destruct (Rlt_dec a b); constructor; auto. Qed.
Lemma Rleb_spec a b : reflect (a <= b) (Rleb a b).
Proof. unfold Rleb. destruct (Rle_dec a b); constructor; auto. Qed.
Lemma Reqb_refl a : Reqb a a = true.
Proof. destruct (Reqb_spec a a); congruence. Qed.
Lemma Reqb_false a b : a <> b -> Reqb a b = false.
Proof. destruct (Reqb_spec a b); congruence. Qed.
Lemma Rltb_true a b : a < b -> Rltb a b = true.
Proof. destruct (Rltb_spec a b); congruence. Qed.
Lemma Rltb_false a b : b <= a -> Rltb a b = false.
Proof. destruct (Rltb_spec a b); [lra|reflexivity]. Qed.
Lemma Rleb_true a b : a <= b -> Rleb a b = true.
Proof. destruct (Rleb_spec a b); congruence. Qed.
Lemma Rleb_false a b : b < a -> Rleb a b = false.
Proof. destruct (Rleb_spec a b); [lra|reflexivity]. Qed.

Definition inf_of_sign (r : R) : xr := if Rltb 0 r then PInf else if Rltb r 0 then NInf else NaN.

Definition xneg (a : xr) : xr := match a with Fin r => Fin (- r) | PInf => NInf | NInf => PInf | NaN => NaN end.
Definition xadd (a b : xr) : xr :=
  match a, b with
  | Fin x, Fin y => Fin (x + y)
  | NaN, _ | _, NaN => NaN
  | PInf, NInf | NInf, PInf => NaN
  | PInf, _ | _, PInf => PInf
  | NInf, _ | _, NInf => NInf
  end.
Definition xsub (a b : xr) : xr := xadd a (xneg b).
Definition xsign (a : xr) : R := match a with Fin r => r | PInf => 1 | NInf => -1 | NaN => 0 end.
Definition xmul (a b : xr) : xr :=
  match a, b with
  | Fin x, Fin y => Fin (x * y)
  | NaN, _ | _, NaN => NaN
  | _, _ => inf_of_sign (xsign a * xsign b)
  end.
(** numpy true division. *)
Definition xdiv (a b : xr) : xr :=
  match a, b with
  | NaN, _ | _, NaN => NaN
  | Fin x, Fin y => if Reqb y 0 then inf_of_sign x else Fin (x / y)
  | Fin _, _ => Fin 0
  | PInf, Fin y => if Rltb y 0 then NInf else PInf
  | NInf, Fin y => if Rltb y 0 then PInf else NInf
  | _, _ => NaN
  end.
(** Python float division: a zero divisor raises. *)
Definition pydiv (a b : xr) : res xr :=
  match b with
  | Fin y => if Reqb y 0 then Err ZeroDivisionError else Ok (xdiv a b)
  | _ => Ok (xdiv a b)
  end.
(** [x ** 0.5] on numpy scalars. *)
Definition xhalf (a : xr) : xr :=
  match a with
  | Fin r => if Rltb r 0 then NaN else Fin (sqrt r)
  | PInf | NInf => PInf
  | NaN => NaN
  end.
(** [x ** 0.5] on Python floats: a negative number gives a complex one, on which the callers raise TypeError as
    soon as they convert to np.float64. Simplification: raised here. *)
Definition pyhalf (a : xr) : res xr :=
  match a with
  | Fin r => if Rltb r 0 then Err TypeError else Ok (Fin (sqrt r))
  | _ => Ok (xhalf a)
  end.
Fixpoint xpow (a : xr) (n : nat) : xr := match n with O => Fin 1 | S k => xmul a (xpow a k) end.

Definition xltb (a b : xr) : bool :=
  match a, b with
  | NaN, _ | _, NaN => false
  | Fin x, Fin y => Rltb x y
  | NInf, NInf => false | NInf, _ => true
  | _, NInf => false
  | PInf, _ => false
  | _, PInf => true
  end.
Definition xeqb (a b : xr) : bool :=
  match a, b with
  | Fin x, Fin y => Reqb x y
  | PInf, PInf | NInf, NInf => true
  | _, _ => false
  end.
Definition xleb (a b : xr) : bool := xltb a b || xeqb a b.
Definition xisinf (a : xr) : bool := match a with PInf | NInf => true | _ => false end.
Definition xisfinite (a : xr) : bool := match a with Fin _ => true | _ => false end.
Definition xisnan (a : xr) : bool := match a with NaN => true | _ => false end.
(** Python's two-argument max and min: the first argument wins unless the second is strictly better. *)
Definition pymax (a b : xr) : xr := if xltb a b then b else a.
Definition pymin (a b : xr) : xr := if xltb b a then b else a.
(** np.log and np.exp. *)
Definition xlog (a : xr) : xr :=
  match a with
  | Fin r => if Rltb 0 r then Fin (ln r) else if Reqb r 0 then NInf else NaN
  | PInf => PInf | _ => NaN
  end.
Definition xexp (a : xr) : xr := match a with Fin r => Fin (exp r) | PInf => PInf | NInf => Fin 0 | NaN => NaN end.

(** Truncation towards zero, as np.int64(float); nan raises ValueError, infinities raise OverflowError, which is
    reported here as ValueError too. *)
Definition truncate (r : R) : R := if Rltb r 0 then - IZR (Int_part (- r)) else IZR (Int_part r).
Definition np_int64 (a : option xr) : res xr :=
  match a with
  | Some (Fin r) => Ok (Fin (truncate r))
  | Some _ => Err ValueError
  | None => Err TypeError
  end.
(** np.float64(None) is nan. *)
Definition np_float64 (a : option xr) : xr := match a with Some x => x | None => NaN end.
(** np.floor and np.ceil. *)
Definition Rfloor (r : R) : R := IZR (Int_part r).
Definition Rceil (r : R) : R := - Rfloor (- r).
Definition xfloor (a : xr) : xr := match a with Fin r => Fin (Rfloor r) | _ => a end.
Definition xceil (a : xr) : xr := match a with Fin r => Fin (Rceil r) | _ => a end.

(** np.finfo(float).eps. *)
Definition eps : R := / 4503599627370496.
Lemma eps_pos : 0 < eps. Proof. unfold eps. lra. Qed.
Lemma eps_small : eps < / 1000000. Proof. unfold eps. lra. Qed.
