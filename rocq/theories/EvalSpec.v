(** Vocabulary for C56: one law per family. *)
From Coq Require Import List String Reals.
From Verif Require Import Base XR FamModel EvalTable.
Import ListNotations.
Open Scope string_scope.

(** The law that an instance stands for: the library's module and its parameters, in the library's order. *)
Definition law (f : family) : string * list string :=
  match f with
  | AsymmetricLaplace => ("asymmetriclaplace", ["mu"; "b"; "kappa"])
  | Bernoulli => ("bernoulli", ["p"])
  | Beta => ("beta", ["alpha"; "beta"])
  | BetaBinomial => ("betabinomial", ["n"; "alpha"; "beta"])
  | BetaScaled => ("betascaled", ["alpha"; "beta"; "lower"; "upper"])
  | Binomial => ("binomial", ["n"; "p"])
  | Cauchy => ("cauchy", ["alpha"; "beta"])
  | ChiSquared => ("chisquared", ["nu"])
  | DiscreteUniform => ("discreteuniform", ["lower"; "upper"])
  | DiscreteWeibull => ("discreteweibull", ["q"; "beta"])
  | ExGaussian => ("exgaussian", ["mu"; "sigma"; "nu"])
  | Exponential => ("exponential", ["lam"])
  | Gamma => ("gamma", ["alpha"; "beta"])
  | Geometric => ("geometric", ["p"])
  | Gumbel => ("gumbel", ["mu"; "beta"])
  | HalfCauchy => ("halfcauchy", ["beta"])
  | HalfNormal => ("halfnormal", ["sigma"])
  | HalfStudentT => ("halfstudentt", ["nu"; "sigma"])
  | HyperGeometric => ("hypergeometric", ["N"; "k"; "n"])
  | InverseGamma => ("inversegamma", ["alpha"; "beta"])
  | Kumaraswamy => ("kumaraswamy", ["a"; "b"])
  | Laplace => ("laplace", ["mu"; "b"])
  | Logistic => ("logistic", ["mu"; "s"])
  | LogitNormal => ("logitnormal", ["mu"; "sigma"])
  | LogLogistic => ("loglogistic", ["alpha"; "beta"])
  | LogNormal => ("lognormal", ["mu"; "sigma"])
  | Moyal => ("moyal", ["mu"; "sigma"])
  | NegativeBinomial => ("negativebinomial", ["n"; "p"])
  | Normal => ("normal", ["mu"; "sigma"])
  | Pareto => ("pareto", ["alpha"; "m"])
  | Poisson => ("poisson", ["mu"])
  | Rice => ("rice", ["nu"; "sigma"])
  | SkewNormal => ("skewnormal", ["mu"; "sigma"; "alpha"])
  | SkewStudentT => ("skew_studentt", ["a"; "b"; "mu"; "sigma"])
  | StudentT => ("studentt", ["nu"; "mu"; "sigma"])
  | Triangular => ("triangular", ["lower"; "c"; "upper"])
  | TruncatedNormal => ("truncatednormal", ["mu"; "sigma"; "lower"; "upper"])
  | Uniform => ("uniform", ["lower"; "upper"])
  | VonMises => ("vonmises", ["mu"; "kappa"])
  | Wald => ("wald", ["mu"; "lam"])
  | Weibull => ("weibull", ["alpha"; "beta"])
  | ZeroInflatedBinomial => ("zi_binomial", ["psi"; "n"; "p"])
  | ZeroInflatedNegativeBinomial => ("zi_negativebinomial", ["psi"; "n"; "p"])
  | ZeroInflatedPoisson => ("zi_poisson", ["psi"; "mu"])
  end.

(** Methods that take a point; the others take none. *)
Definition query (m : method) (x : xr) : list (option xr) :=
  match m with
  | Mpdf | Mcdf | Mppf | Mlogpdf | Msf | Misf | Mlogcdf | Mlogsf | Mlogisf => [Some x]
  | _ => []
  end.

Definition zero_inflated (f : family) : Prop :=
  In f [ZeroInflatedBinomial; ZeroInflatedNegativeBinomial; ZeroInflatedPoisson].

(** Methods every family computes with the library; the others may be inherited. *)
Definition core (m : method) : Prop :=
  In m [Mpdf; Mcdf; Mppf; Mlogpdf; Mentropy; Mmean; Mmedian; Mvar; Mstd; Mskewness; Mkurtosis; Mrvs].
