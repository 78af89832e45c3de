(** Model of the warnings of the elicitation functions: preliz/unidimensional/maxent.py, quartile.py, matching.py and
    mle.py. What the functions do to the distribution is in ApiModel.v and SampleModel.v; here the fitted distribution is
    given by its cdf, its moments or its quantiles. *)
From Coq Require Import List Bool String Ascii Reals ZArith.
From Verif Require Import Base RLists XR FamModel LawModel OptModel ApiModel.
Import ListNotations.
Open Scope R_scope.

(** The numbers a caller can pass as end points. np.float64 is a subclass of float and bool one of int; the other numpy
    scalars are subclasses of neither. *)
Inductive pynum : Type :=
| PyInt (z : Z)        (* int and bool *)
| PyFloat (x : xr)     (* float and np.float64 *)
| NpInt (z : Z)        (* np.int64, np.int32, ... *)
| NpFloat32 (x : xr).  (* np.float32, np.float16 *)
Definition number (n : pynum) : xr :=
  match n with PyInt z | NpInt z => Fin (IZR z) | PyFloat x | NpFloat32 x => x end.
(** float.is_integer: false for infinities and nan. *)
Definition float_is_integer (x : xr) : bool :=
  match x with Fin r => Reqb r (IZR (Int_part r)) | _ => false end.
(** maxent.py 182-187. *)
Definition is_integer_num (n : pynum) : bool :=
  match n with PyInt _ => true | PyFloat x => float_is_integer x | _ => false end.
(** maxent.py 178-179. *)
Definition end_points_ints (lower upper : pynum) : bool := is_integer_num lower && is_integer_num upper.

(** The warnings, with the numbers printed in them. *)
Inductive warning : Type :=
| BoundsNotIntegers                    (* maxent.py 134-137 *)
| MassMissed (wanted got : xr)         (* maxent.py 161-164 *)
| QuartilesMissed (below : list xr).   (* quartile.py 132-137 *)

(** maxent.py 132-137 and 158-164. [discrete] is the kind of the distribution, [cdf] that of the fitted distribution. *)
Definition maxent_warnings (discrete : bool) (cdf : xr -> xr) (lower upper : pynum) (mass : xr) : list warning :=
  ((if discrete && negb (end_points_ints lower upper) then [BoundsNotIntegers] else []) ++
   (if xltb (Fin 0.01) (relative_error discrete cdf (number lower) (number upper) mass)
    then [MassMissed mass (computed_mass discrete cdf (number lower) (number upper))] else []))%list.

(** quartile.py 128-137. *)
Definition quartile_warnings (discrete : bool) (cdf : xr -> xr) (q1 q2 q3 : xr) : list warning :=
  if xltb (Fin 0.01) (relative_error discrete cdf q1 q3 (Fin 0.5))
  then [QuartilesMissed (map cdf [q1; q2; q3])] else [].

(** matching.py 270-286. [values] are the letters of [moments] or the quantiles; each line of the message has one of them
    with the target and the value of the fitted distribution. [None] is no warning. *)
Definition match_error (fitted target : xr) : xr :=
  xabs (xmul (xdiv (xsub fitted target) (xadd target (Fin 0.000001))) (Fin 100)).
Definition at_index {A} (l : list A) (i : nat) : res A :=
  match nth_error l i with Some x => Ok x | None => Err IndexError end.
Fixpoint mismatch_lines {V} (values : list V) (target fitted : list xr) (tol : R) (i : nat) (errors : list xr)
    : res (list (V * xr * xr)) :=
  match errors with
  | [] => Ok []
  | e :: r =>
      do line <- (if xltb (Fin tol) e
                  then do v <- at_index values i; do t <- at_index target i; do g <- at_index fitted i; Ok [(v, t, g)]
                  else Ok []);
      do rest <- mismatch_lines values target fitted tol (S i) r;
      Ok (line ++ rest)%list
  end.
Definition check_relative_error {V} (values : list V) (target fitted : list xr) (tol : R) : res (option (list (V * xr * xr))) :=
  do pairs <- broadcast fitted target;
  let errors := map (fun p => match_error (fst p) (snd p)) pairs in
  if existsb (xltb (Fin tol)) errors
  then do lines <- mismatch_lines values target fitted tol 0 errors; Ok (Some lines)
  else Ok None.

(** matching.py 131-138: the end of match_moments. [fitted] are the methods of the fitted distribution. *)
Definition match_moments_warning (fitted : moment_methods xr) (types : string) (target : list xr)
    : res (option (list (ascii * xr * xr))) :=
  do requested <- moments fitted types;
  if negb (forallb xisfinite requested) then Err ValueError
  else check_relative_error (list_ascii_of_string types) target requested 0.01.
(** matching.py 257-259: the end of match_quantiles. *)
Definition match_quantiles_warning (ppf : xr -> xr) (quantiles target : list xr) : res (option (list (xr * xr * xr))) :=
  check_relative_error quantiles target (map ppf quantiles) 0.1.

(** mle.py 86-91. [frozen_after] is is_frozen of each recorded distribution after the fits, [None] for a slot that was
    never filled. *)
Definition mle_warns (frozen_after : list (option bool)) : bool :=
  forallb (fun s => match s with None => true | Some b => negb b end) frozen_after.
