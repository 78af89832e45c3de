(** The arithmetic of the cumulative distribution functions, quantile functions and helpers of preliz in double precision:
    distributions/truncated.py, hurdle.py, mixture.py, distributions.py and internal/special.py. The other models compute with
    real numbers; here the result of every operation is rounded as the processor does it. *)
From Coq Require Import List Bool Reals ZArith.
From Flocq Require Import Core.
From Verif Require Import XR LawModel.
Import ListNotations.
Open Scope R_scope.

(** IEEE 754 binary64: 53 digits, smallest positive number 2^-1074, to nearest, ties to even. Simplification: there is no
    largest number; the functions below are used on numbers between -2 and 2, except the weights of a mixture and samples. *)
Definition rnd (x : R) : R := round radix2 (FLT_exp (-1074) 53) ZnearestE x.
Definition double (x : R) : Prop := generic_format radix2 (FLT_exp (-1074) 53) x.
Definition fadd (a b : R) : R := rnd (a + b).
Definition fsub (a b : R) : R := rnd (a - b).
Definition fmul (a b : R) : R := rnd (a * b).
Definition fdiv (a b : R) : R := rnd (a / b).

(** truncated.py 160-163 *)
Definition f_adjust_lower (k : kind) (lower : xr) : xr :=
  match k, lower with Discrete, Fin l => Fin (fsub l 1) | _, _ => lower end.

Section Wrapped.
Variable F : xr -> R.            (* cdf of the wrapped distribution, as computed *)
Variable Q : R -> xr.            (* its ppf *)

(** truncated.py 127-132 *)
Definition f_trunc_cdf (k : kind) (lower upper x : xr) : R :=
  let lower := f_adjust_lower k lower in
  let lcdf := F lower in
  let vals := fdiv (fsub (F x) lcdf) (fsub (F upper) lcdf) in
  if xltb x lower then 0 else if xltb upper x then 1 else vals.
(** truncated.py 134-139 *)
Definition f_trunc_ppf (k : kind) (lower upper : xr) (q : R) : xr :=
  let lower := f_adjust_lower k lower in
  let lcdf := F lower in
  let vals := Q (fadd lcdf (fmul q (fsub (F upper) lcdf))) in
  if Rltb q 0 || Rltb 1 q then NaN else vals.

(** distribution_helper.py 11: numpy's machine precision *)
Definition f_eps : R := bpow radix2 (-52).
(** hurdle.py 123-133: dist == "discrete" compares an object with a string and is False *)
Definition f_hurdle_cdf (psi : R) (x : xr) : R :=
  if xleb x (Fin 0) then fsub 1 psi
  else fsub 1 (fdiv (fmul psi (fsub 1 (F x))) (fsub 1 (F (Fin f_eps)))).
(** hurdle.py 135-147 *)
Definition f_hurdle_ppf (k : kind) (psi q : R) : xr :=
  let lcdf := F (Fin (match k with Discrete => 0 | _ => f_eps end)) in
  let vals := if Rleb (fsub 1 psi) q
              then Q (fadd lcdf (fdiv (fmul (fsub q (fsub 1 psi)) (fsub 1 lcdf)) psi))
              else Fin 0 in
  if Rltb q 0 || Rltb 1 q then NaN else vals.
End Wrapped.

(** The order in which numpy adds the entries of an array: [Entry i] is the i-th entry. *)
Inductive order := Entry (i : nat) | Plus (a b : order).
Fixpoint fsum (t : order) (v : nat -> R) : R :=
  match t with Entry i => v i | Plus a b => fadd (fsum a v) (fsum b v) end.
Fixpoint entries (t : order) : list nat := match t with Entry i => [i] | Plus a b => entries a ++ entries b end.
(** From left to right: what numpy does with up to seven numbers, and along the first axis of a table. *)
Fixpoint left_to_right (n : nat) : order := match n with O => Entry 0 | S m => Plus (left_to_right m) (Entry n) end.

(** mixture.py 70-74 *)
Definition f_weights (t : order) (weights : nat -> R) (i : nat) : R := fdiv (weights i) (fsum t weights).
(** mixture.py 82-85 *)
Definition f_mix_cdf (t t' : order) (F : nat -> xr -> R) (weights : nat -> R) (x : xr) : R :=
  fsum t' (fun i => fmul (F i x) (f_weights t weights i)).

(** combine.py 67-69: the number of draws from the i-th distribution; astype(int) drops the decimals *)
Definition f_size (t : order) (weights : nat -> R) (sample_size : R) (i : nat) : Z := Ztrunc (fmul sample_size (f_weights t weights i)).

(** distributions.py 276-284, given the value of the cdf *)
Definition f_sf (c : R) : R := fsub 1 c.
(** distributions.py 286-294: np.log of a negative number is nan *)
Definition f_logsf (log : R -> R) (c : R) : xr :=
  let s := f_sf c in if Rltb s 0 then NaN else if Reqb s 0 then NInf else Fin (log s).
(** distributions.py 296-304 *)
Definition f_isf (Q : R -> xr) (q : R) : xr := Q (fsub 1 q).
(** distributions.py 438: the two probabilities given to ppf *)
Definition f_tails (mass : R) : R * R := (fdiv (fsub 1 mass) 2, fsub 1 (fdiv (fsub 1 mass) 2)).

(** special.py 73-81: what is given to np.log for x strictly between 0 and 1 *)
Definition f_odds (x : R) : R := fdiv x (fsub 1 x).
(** special.py 85-89; [exp] is np.exp *)
Definition f_expit (exp : R -> R) (x : R) : R :=
  if Rleb 0 x then fdiv 1 (fadd 1 (exp (- x))) else fdiv (exp x) (fadd 1 (exp x)).

(** special.py 111-121 *)
Fixpoint f_squares (mean : R) (data : list R) (s : R) : R :=
  match data with [] => s | x :: r => f_squares mean r (fadd s (rnd (fsub x mean * fsub x mean))) end.
Definition f_mean_and_std (t : order) (data : list R) : R * R :=
  let n := INR (length data) in
  let mean := fdiv (fsum t (fun i => nth i data 0)) n in
  (mean, rnd (sqrt (fdiv (f_squares mean data 0) n))).
