(** Model of the simplex geometry behind the Dirichlet plot (preliz/internal/plot_helper_multivariate.py) and of the
    wrapped intervals of the von Mises distribution (preliz/distributions/vonmises.py). *)
From Coq Require Import List Bool String Reals.
From Verif Require Import Base RLists XR LawModel.
Import ListNotations.
Open Scope R_scope.

(* ------------------------------------------------------------ the simplex *)
(** A numpy array with two entries. *)
Definition point := (R * R)%type.
Definition padd (a b : point) : point := (fst a + fst b, snd a + snd b).
Definition psub (a b : point) : point := (fst a - fst b, snd a - snd b).
Definition pdivs (a : point) (s : R) : point := (fst a / s, snd a / s).
Definition dot (a b : point) : R := fst a * fst b + snd a * snd b.

(** plot_helper_multivariate.py 33: the corners. 0.75 ** 0.5 is the real square root. *)
Definition corner (i : nat) : point :=
  match i with
  | O => (0, 0)
  | 1%nat => (1, 0)
  | _ => (0.5, sqrt 0.75)
  end.
(** plot_helper_multivariate.py 35-37. *)
Definition midpoint (i : nat) : point :=
  pdivs (padd (corner ((i + 1) mod 3)) (corner ((i + 2) mod 3))) 2.
(** plot_helper_multivariate.py 60-63: before np.clip. *)
Definition bsc (xy : point) : list R :=
  map (fun i => dot (psub (corner i) (midpoint i)) (psub xy (midpoint i)) / 0.75) (seq 0 3).
(** np.clip on a real: minimum(maximum(x, lower), upper). *)
Definition clip_R (x lo hi : R) : R := Rmin (Rmax x lo) hi.
(** plot_helper_multivariate.py 52-64. *)
Definition xy2bc (tol : R) (xy : point) : list R := map (fun b => clip_R b tol (1 - tol)) (bsc xy).
Definition default_tol : R := 1 / 1000.

(** plot_helper_multivariate.py 66-68: the density at barycentric coordinates; [coef] is the normalising constant of
    lines 29-31, and x ** a on a positive x is Rpower. reduce(mul, ...) is the product from the left. *)
Definition simplex_pdf (coef : R) (alpha bc : list R) : R :=
  coef * match map (fun xa => Rpower (fst xa) (snd xa - 1)) (combine bc alpha) with
         | [] => 1
         | h :: t => fold_left Rmult t h
         end.

(** plot_helper_multivariate.py 28-31 and 39-43: the constant, with [gammaln] from internal/special.py, and the densities at the points of the mesh.
    nan_to_num does nothing on reals. *)
Definition simplex_coef (gammaln : R -> R) (alpha : list R) : R := exp (gammaln (Rsum alpha) - Rsum (map gammaln alpha)).
Definition simplex_pvals (gammaln : R -> R) (alpha : list R) (mesh : list point) : list R :=
  map (fun xy => simplex_pdf (simplex_coef gammaln alpha) alpha (xy2bc default_tol xy)) mesh.

(** plot_helper_multivariate.py 12-18. The ceiling of n / 3 on naturals. *)
Definition get_cols_rows (n : nat) : nat * nat :=
  if Nat.leb n 3 then (1%nat, n) else (3%nat, Nat.div (n + 2) 3).

(* ------------------------------------------------------------ find_hdi_contours *)
(** plot_helper_multivariate.py 243-245. [sorted] is np.sort(density)[::-1]; cumsum from the left, divided by its last
    entry. *)
Fixpoint cumsum (acc : R) (l : list R) : list R :=
  match l with [] => [] | x :: r => (acc + x) :: cumsum (acc + x) r end.
Definition csd (sorted : list R) : list R :=
  map (fun c => c / List.last (cumsum 0 sorted) 0) (cumsum 0 sorted).
(** plot_helper_multivariate.py 248-252: the last entry that the mask keeps, or the first entry of all. An empty
    density raises IndexError at line 245. *)
Definition contour (sorted : list R) (hdi_prob : R) : R :=
  let kept := map fst (filter (fun dc => Rleb (snd dc) hdi_prob) (combine sorted (csd sorted))) in
  match kept with
  | [] => List.hd 0 sorted
  | h :: t => List.last (h :: t) h
  end.
(** plot_helper_multivariate.py 228-257; [sort] is numpy's ascending sort, used twice. *)
Definition find_hdi_contours (sort : list R -> list R) (density hdi_probs : list R) : res (list R) :=
  match rev (sort density) with
  | [] => Err IndexError
  | s => Ok (sort (map (contour s) hdi_probs))
  end.

(* ------------------------------------------------------------ von Mises intervals *)
(** np.arctan2(y, x) on reals; the sign of zero is not modelled. *)
Definition arctan2 (y x : R) : R :=
  if Rltb 0 x then atan (y / x)
  else if Rltb x 0 then (if Rltb y 0 then atan (y / x) - PI else atan (y / x) + PI)
  else if Rltb 0 y then PI / 2
  else if Rltb y 0 then - (PI / 2)
  else 0.
(** np.arctan2(np.sin(x), np.cos(x)); sin and cos of inf and nan are nan. *)
Definition wrap (x : xr) : xr :=
  match x with Fin t => Fin (arctan2 (sin t) (cos t)) | _ => NaN end.
(** vonmises.py 145-154. [fmt] is what formatting and reading back does to a number; None is "none". *)
Definition fmt_apply (fmt : option (xr -> xr)) (x : xr) : xr := match fmt with None => x | Some f => f x end.
Definition warp_interval (lo hi mu : xr) (fmt : option (xr -> xr)) : xr * xr :=
  (fmt_apply fmt (wrap (xadd lo mu)), fmt_apply fmt (wrap (xadd hi mu))).

(** The attributes of a VonMises instance that the two methods read or write: the parameters (None is unset), and
    whether the instance is frozen and its parameters scalar. *)
Record vonmises := mkVM { vm_mu : option xr; vm_kappa : option xr; vm_frozen : bool; vm_scalar : bool }.
Definition vm_set_mu (v : vonmises) (m : option xr) : vonmises :=
  mkVM m (vm_kappa v) (vm_frozen v) (vm_scalar v).
(** vonmises.py 130-135 and 137-142: the same code around the inherited method. The inherited method runs on the
    instance with mu = 0; when it raises, line 133 (140) is not reached. *)
Definition vm_interval (inherited : vonmises -> res (xr * xr)) (fmt : option (xr -> xr)) (v : vonmises)
    : vonmises * res (xr * xr) :=
  let mean := vm_mu v in
  let v0 := vm_set_mu v (Some (Fin 0)) in
  match inherited v0 with
  | Err e => (v0, Err e)
  | Ok (lo, hi) =>
      let v1 := vm_set_mu v0 mean in
      match vm_mu v1 with
      | Some mu => (v1, Ok (warp_interval lo hi mu fmt))
      | None => (v1, Err TypeError)
      end
  end.
(** vonmises.py 130-135 with distributions.py eti. [methods_of mu kappa] are the methods of the instance with these
    parameters (pytensor_distributions). *)
Definition vm_eti (methods_of : option xr -> option xr -> methods) (default_mass : xr)
    (mass : option xr) (fmt : option (xr -> xr)) (v : vonmises) : vonmises * res (xr * xr) :=
  vm_interval (fun w => eti true (vm_frozen w) (vm_scalar w) (methods_of (vm_mu w) (vm_kappa w))
                            default_mass mass fmt) fmt v.
