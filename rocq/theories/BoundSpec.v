(** Vocabulary for C53: the documented domain of the parameters (docstrings of preliz/distributions/*.py). *)
From Coq Require Import List Bool String Reals.
From Verif Require Import Base XR FamModel FamSpec BoundModel.
Import ListNotations.
Open Scope R_scope.
Open Scope string_scope.

Definition in_unit (x : R) : Prop := 0 < x < 1.

(** [v] gives the values of the parameters of the set [P]. *)
Definition domain (f : family) (P : list string) (v : string -> R) : Prop :=
  match f with
  | AsymmetricLaplace => (In "kappa" P -> 0 < v "kappa") /\ (In "q" P -> in_unit (v "q")) /\ 0 < v "b"
  | Bernoulli => In "p" P -> 0 < v "p" <= 1
  | Beta => (In "alpha" P -> 0 < v "alpha" /\ 0 < v "beta") /\ (In "mu" P -> in_unit (v "mu")) /\
            (In "sigma" P -> 0 < v "sigma" /\ v "sigma" < sqrt (v "mu" * (1 - v "mu"))) /\ (In "nu" P -> 0 < v "nu")
  | BetaBinomial => 0 < v "alpha" /\ 0 < v "beta" /\ 0 <= v "n"
  | BetaScaled => 0 < v "alpha" /\ 0 < v "beta" /\ v "lower" < v "upper"
  | Binomial => 0 <= v "n" /\ in_unit (v "p")
  | Cauchy | Gumbel | HalfCauchy => 0 < v "beta"
  | ChiSquared => 0 < v "nu"
  | DiscreteUniform | Uniform => v "lower" < v "upper"
  | DiscreteWeibull => in_unit (v "q") /\ 0 < v "beta"
  | ExGaussian => 0 < v "sigma" /\ 0 < v "nu"
  | Exponential => (In "lam" P -> 0 < v "lam") /\ (In "scale" P -> 0 < v "scale")
  | Gamma | InverseGamma =>
      (In "alpha" P -> 0 < v "alpha" /\ 0 < v "beta") /\ (In "mu" P -> 0 < v "mu" /\ 0 < v "sigma")
  | Geometric => 0 < v "p" <= 1
  | HalfNormal | LogitNormal | Normal | SkewNormal =>
      (In "sigma" P -> 0 < v "sigma") /\ (In "tau" P -> 0 < v "tau")
  | HalfStudentT | StudentT =>
      0 < v "nu" /\ (In "sigma" P -> 0 < v "sigma") /\ (In "lam" P -> 0 < v "lam")
  | HyperGeometric => 0 < v "N" /\ 0 <= v "k" <= v "N" /\ 0 <= v "n" <= v "N"
  | Kumaraswamy => 0 < v "a" /\ 0 < v "b"
  | Laplace => 0 < v "b"
  | Logistic => 0 < v "s"
  | LogNormal | Moyal => 0 < v "sigma"
  | LogLogistic | Weibull => 0 < v "alpha" /\ 0 < v "beta"
  | NegativeBinomial =>
      (In "mu" P -> 0 < v "mu" /\ 0 < v "alpha") /\ (In "p" P -> in_unit (v "p") /\ 0 < v "n")
  | Pareto => 0 < v "alpha" /\ 0 < v "m"
  | Poisson => 0 <= v "mu"
  | Rice => (In "nu" P -> 0 <= v "nu") /\ (In "b" P -> 0 <= v "b") /\ 0 < v "sigma"
  | SkewStudentT => (In "sigma" P -> 0 < v "sigma") /\ (In "lam" P -> 0 < v "lam") /\ 0 < v "a" /\ 0 < v "b"
  | Triangular => v "lower" <= v "c" <= v "upper" /\ v "lower" < v "upper"
  | TruncatedNormal => 0 < v "sigma" /\ v "lower" < v "upper"
  | VonMises => - PI <= v "mu" <= PI /\ 0 < v "kappa"
  | Wald => (In "mu" P -> 0 < v "mu") /\ (In "lam" P -> 0 < v "lam") /\ (In "phi" P -> 0 < v "phi")
  | ZeroInflatedBinomial => in_unit (v "psi") /\ 0 <= v "n" /\ in_unit (v "p")
  | ZeroInflatedNegativeBinomial =>
      in_unit (v "psi") /\ (In "mu" P -> 0 < v "mu" /\ 0 < v "alpha") /\ (In "p" P -> in_unit (v "p") /\ 0 < v "n")
  | ZeroInflatedPoisson => in_unit (v "psi") /\ 0 <= v "mu"
  end.

(** The candidate [v] lies within the bounds the code publishes for the parameter set [P]; the size of the population of a
    HyperGeometric is either free (None) or fixed to the value it has in [v]. *)
Definition in_box (f : family) (P : list string) (N : option xr) (v : string -> R) : Prop :=
  (N = None \/ N = Some (Fin (v "N"))) /\ all_inside (map (fun k => Fin (v k)) P) (params_support f P N).

(** Every point at most 1/10000 away, in each parameter, is in the domain. *)
Definition with_room (f : family) (P : list string) (v : string -> R) : Prop :=
  forall w, (forall k, Rabs (w k - v k) <= 1 / 10000) -> domain f P w.

(** Parameter sets whose bounds let a search leave the documented domain. *)
Definition leaky : list (family * list string) :=
  [(Uniform, ["lower"; "upper"]); (DiscreteUniform, ["lower"; "upper"]); (Triangular, ["lower"; "c"; "upper"]);
   (TruncatedNormal, ["mu"; "sigma"; "lower"; "upper"]); (BetaScaled, ["alpha"; "beta"; "lower"; "upper"]);
   (HyperGeometric, ["N"; "k"; "n"]); (Beta, ["mu"; "sigma"]); (NegativeBinomial, ["p"; "n"]);
   (ZeroInflatedNegativeBinomial, ["psi"; "p"; "n"])].
