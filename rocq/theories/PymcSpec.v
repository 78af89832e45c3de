(** How PyMC lays out the inputs of its random variables (PyMC 5; the layouts are exercised by tests/test_from_pymc.py of the
    repository). This is an assumption about a library that is not modelled, kept apart from the model of PreliZ. *)
From Coq Require Import List Bool String Reals.
From Verif Require Import Base XR FamModel FamSpec CatModel PymcModel.
Import ListNotations.
Open Scope R_scope.
Open Scope string_scope.

(** Values of the canonical parameters; [None] is a parameter left open, for which the user passes nan. *)
Definition values := string -> option xr.
Definition num (o : option xr) : xr := match o with Some x => x | None => NaN end.

(** The numeric inputs, for the canonical parameters of the family. *)
Definition layout (f : family) (v : values) : list xr :=
  let x k := num (v k) in
  match f with
  | AsymmetricLaplace => [x "b"; x "kappa"; x "mu"]
  | Exponential => [xdiv (Fin 1) (x "lam")]
  | Gamma => [x "alpha"; xdiv (Fin 1) (x "beta")]
  | Rice => [xdiv (x "nu") (x "sigma"); x "sigma"]
  | SkewStudentT => [x "a"; x "b"; x "mu"; x "sigma"]
  | Wald => [x "mu"; x "lam"; Fin 0]
  | BetaBinomial => [x "n"; x "alpha"; x "beta"]
  | NegativeBinomial => [x "alpha"; xdiv (x "alpha") (xadd (x "mu") (x "alpha"))]
  | HyperGeometric => [x "k"; xsub (x "N") (x "k"); x "n"]
  | _ => map x (canonical f)
  end.
(** What comes before them: generator and size, for HalfNormal also the location 0; LogitNormal has no size. *)
Definition leading (f : family) : list input :=
  match f with HalfNormal => [Skip; Skip; Num (Fin 0)] | LogitNormal => [Skip] | _ => [Skip; Skip] end.
Definition pymc_node (f : family) (v : values) : node := Node (family_name f) (leading f ++ map Num (layout f v)).

(** Families that exist in PyMC as a variable of their own. *)
Definition convertible (f : family) : bool :=
  match f with
  | BetaScaled | LogLogistic | ChiSquared | ZeroInflatedBinomial | ZeroInflatedNegativeBinomial | ZeroInflatedPoisson => false
  | _ => true
  end.
(** The distribution with these parameters, and no others, set. *)
Definition given (f : family) (v : values) : args := fun k => if existsb (String.eqb k) (canonical f) then v k else None.

Definition real (o : option xr) : Prop := exists r, o = Some (Fin r).
(** No value is nan; parameters that PyMC divides by are not zero; and for the three families whose inputs mix two
    parameters, the second of them is known whenever the first is. *)
Definition sensible (f : family) (v : values) : Prop :=
  (forall k, v k <> Some NaN) /\
  match f with
  | Exponential => forall x, v "lam" = Some x -> exists r, x = Fin r /\ r <> 0
  | Gamma => forall x, v "beta" = Some x -> exists r, x = Fin r /\ r <> 0
  | Rice => v "nu" <> None -> real (v "nu") /\ exists s, v "sigma" = Some (Fin s) /\ s <> 0
  | NegativeBinomial => v "mu" <> None -> exists m a, v "mu" = Some (Fin m) /\ v "alpha" = Some (Fin a) /\ a <> 0 /\ m + a <> 0
  | HyperGeometric => v "N" <> None -> real (v "N") /\ real (v "k")
  | _ => True
  end.
