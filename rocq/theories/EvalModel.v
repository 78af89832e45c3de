(** Model of the evaluation methods of the univariate families: what pdf, cdf, ..., rvs pass to the numerical library.
    The library (pytensor_distributions) is a parameter. *)
From Coq Require Import List Bool String Reals Arith.
From Verif Require Import Base XR FamModel CatModel EvalTable.
Import ListNotations.
Open Scope R_scope.
Open Scope string_scope.

Section Eval.
(** [lib module function positional]: the value the library returns at one point. *)
Variable lib : string -> method -> list (option xr) -> xr.
(** distributions.py 1152-1153 and optimization.py 545-565 (find_mode): a search that sees the density, the quantiles and
    the support of the instance. *)
Variable search_mode : (xr -> res xr) -> (xr -> res xr) -> xr * xr -> xr.

(** The value of a positional argument. An attribute that was never set and one that is None are the same here. *)
Definition actual (d : dist) (x : xr) (a : arg) : option xr := match a with X => Some x | A k => attr d k end.

(** Python's call of [ptd_x]: a wrong number of arguments is a TypeError; an unknown name in the body is a NameError,
    represented by AttributeError. The wrappers pytensor_jit and pytensor_rng_jit are transparent (C38). *)
Definition bind_args (w : wrapper) (d : dist) (x : xr) : res (list (option xr)) :=
  let vals := map (actual d x) (outer w) in
  if negb (Nat.eqb (List.length vals) (List.length (formals w))) then Err TypeError
  else map_res (fun k => match lookup k (combine (formals w) vals) with Some v => Ok v | None => Err AttributeError end)
               (inner w).
Definition run (w : wrapper) (d : dist) (x : xr) : res xr :=
  do args <- bind_args w d x; Ok (lib (library w) (target w) args).

(** zi_binomial.py 75-80; zi_poisson.py 75-81; zi_negativebinomial.py 130-136: np.where around the density. *)
Definition after_pdf (f : family) (d : dist) (x y : xr) : xr :=
  match f with
  | ZeroInflatedBinomial =>
      if (xltb x (Fin 0) || xltb (np_float64 (attr d "n")) x || negb (xisfinite x))%bool then Fin 0 else y
  | ZeroInflatedPoisson | ZeroInflatedNegativeBinomial =>
      let y := if xltb x (Fin 0) then Fin 0 else y in if negb (xisfinite x) then NaN else y
  | _ => y
  end.

(** The method defined by the family itself; None if it is inherited. *)
Definition own (f : family) (m : method) (d : dist) (x : xr) : option (res xr) :=
  match wrap f m with
  | None => None
  | Some w =>
      Some (match m with
            | Mpdf => do y <- run w d x; Ok (after_pdf f d x y)
            | _ => run w d x
            end)
  end.
Definition continuous (f : family) : bool :=
  match f with
  | Bernoulli | NegativeBinomial | ZeroInflatedNegativeBinomial | BetaBinomial | Binomial | DiscreteUniform
  | DiscreteWeibull | Geometric | HyperGeometric | Poisson | ZeroInflatedBinomial | ZeroInflatedPoisson => false
  | _ => true
  end.
(** NotImplementedError, a subclass of RuntimeError: distributions.py 211-264, 306-352. *)
Definition abstract : res xr := Err RuntimeError.
Definition or_else (o : option (res xr)) (r : res xr) : res xr := match o with Some v => v | None => r end.
(** distributions.py 266-304 (logcdf, sf, logsf, isf) and 1152-1153 (mode). No class defines logisf but those in the table. *)
Definition pdf f d x := or_else (own f Mpdf d x) abstract.
Definition cdf f d x := or_else (own f Mcdf d x) abstract.
Definition ppf f d x := or_else (own f Mppf d x) abstract.
Definition sf f d x := or_else (own f Msf d x) (do c <- cdf f d x; Ok (xsub (Fin 1) c)).
Definition eval (f : family) (m : method) (d : dist) (x : xr) : res xr :=
  match m with
  | Mpdf => pdf f d x
  | Mcdf => cdf f d x
  | Mppf => ppf f d x
  | Msf => sf f d x
  | Mlogcdf => or_else (own f Mlogcdf d x) (do c <- cdf f d x; Ok (xlog c))
  | Mlogsf => or_else (own f Mlogsf d x) (do c <- sf f d x; Ok (xlog c))
  | Misf => or_else (own f Misf d x) (ppf f d (xsub (Fin 1) x))
  | Mmode => or_else (own f Mmode d x)
               (if continuous f then Ok (search_mode (pdf f d) (ppf f d) (supp d)) else abstract)
  | _ => or_else (own f m d x) abstract
  end.
End Eval.

(** rvs: random_state becomes a generator, which is passed on with the size. *)
Section Rvs.
Variables (Size Seed Gen Sample : Type) (default_rng : Seed -> Gen).
Variable lib_rvs : string -> method -> list (option xr) -> Size -> Gen -> Sample.
Definition rvs (f : family) (d : dist) (size : Size) (random_state : Seed) : res Sample :=
  match wrap f Mrvs with
  | None => Err RuntimeError
  | Some w => do args <- bind_args w d NaN; Ok (lib_rvs (library w) (target w) args size (default_rng random_state))
  end.
End Rvs.
