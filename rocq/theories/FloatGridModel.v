(** Grids of values, integrals over them and the variance of mixtures, computed in double precision. As in FloatModel.v
    overflow is not modelled; [a ** 2] is the square rounded to the nearest double. *)
From Coq Require Import List Bool Reals ZArith Arith.
From Flocq Require Import Core.
From Verif Require Import XR LawModel FloatModel FloatConvModel.
Import ListNotations.
Open Scope R_scope.

(** distributions.py 1173-1174 (_continuous_xvals): the entry number [i] of np.linspace(lower_ep, upper_ep, n_points) for
    n_points at least 2. numpy multiplies the indices by the step, or, if the step is 0, divides them first; it adds the
    first value, and puts the last value at the end. *)
Definition f_linspace (lower_ep upper_ep : R) (n_points i : nat) : R :=
  if Nat.eqb i (n_points - 1) then upper_ep
  else
    let div := INR (n_points - 1) in
    let delta := fsub upper_ep lower_ep in
    let step := fdiv delta div in
    let y := if Reqb step 0 then fmul (fdiv (INR i) div) delta else fmul (INR i) step in
    fadd y lower_ep.

(** np.trapezoid(y, x) over the values with numbers 0 to n: the widths times the sums of neighbouring heights, halved, then
    added in the order [t]. *)
Definition f_trapezoid (t : order) (y x : nat -> R) : R :=
  fsum t (fun i => fdiv (fmul (fsub (x (S i)) (x i)) (fadd (y (S i)) (y i))) 2).
(** truncated.py 82-88 and hurdle.py 77-83, continuous: np.trapezoid(x_values * pdf, x_values) *)
Definition f_mean (t : order) (x pdf : nat -> R) : R := f_trapezoid t (fun i => fmul (x i) (pdf i)) x.
(** truncated.py 103-109 and hurdle.py 98-104, continuous *)
Definition f_var (t : order) (x pdf : nat -> R) (mean : R) : R :=
  f_trapezoid t (fun i => fmul (fsquare (fsub (x i) mean)) (pdf i)) x.
(** truncated.py 82-86 and 103-107, hurdle.py 77-81 and 98-102, discrete: np.sum *)
Definition f_mean_discrete (t : order) (x pdf : nat -> R) : R := fsum t (fun i => fmul (x i) (pdf i)).
Definition f_var_discrete (t : order) (x pdf : nat -> R) (mean : R) : R :=
  fsum t (fun i => fmul (fsquare (fsub (x i) mean)) (pdf i)).

(** x ** 0.5 of a numpy double: nan for negative numbers. truncated.py 111-112, hurdle.py 106-107, mixture.py 127-128 *)
Definition f_std (var : R) : xr := if Rltb var 0 then NaN else Fin (rnd (sqrt var)).

(** mixture.py 107-110: [means i] is what mean() of the i-th member gives *)
Definition f_mix_mean (t t' : order) (weights means : nat -> R) : R :=
  fsum t' (fun i => fmul (means i) (f_weights t weights i)).
(** mixture.py 115-125 *)
Definition f_mix_var (t t' : order) (weights means vars : nat -> R) : R :=
  fsub (fsum t' (fun i => fmul (f_weights t weights i) (fadd (vars i) (fsquare (means i)))))
       (fsquare (f_mix_mean t t' weights means)).
