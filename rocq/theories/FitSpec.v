(** Specification vocabulary for C11: textbook mean and variance of the families, as functions of their canonical
    parameters (docstrings of preliz/distributions/*.py; for AsymmetricLaplace [b] is a scale, as its docstring says
    in the list of parameters). *)
From Coq Require Import List Bool String Reals.
From Verif Require Import Base XR FamModel.
Import ListNotations.
Open Scope R_scope.
Open Scope string_scope.

Section Textbook.
Variable euler_gamma : R.
Variable Gam : R -> R.

Definition textbook_mean (f : family) (p : string -> R) : R :=
  match f with
  | AsymmetricLaplace => p "mu" - (p "kappa" - / p "kappa") * p "b"
  | Bernoulli => p "p"
  | Beta => p "alpha" / (p "alpha" + p "beta")
  | BetaScaled => p "lower" + (p "upper" - p "lower") * (p "alpha" / (p "alpha" + p "beta"))
  | ChiSquared => p "nu"
  | DiscreteUniform | Uniform => (p "lower" + p "upper") / 2
  | ExGaussian => p "mu" + p "nu"
  | Exponential => / p "lam"
  | Gamma => p "alpha" / p "beta"
  | Geometric => / p "p"
  | Gumbel => p "mu" + p "beta" * euler_gamma
  | HalfNormal => p "sigma" * sqrt (2 / PI)
  | HalfStudentT =>
      2 * p "sigma" * sqrt (p "nu" / PI) * (Gam ((p "nu" + 1) / 2) / (Gam (p "nu" / 2) * (p "nu" - 1)))
  | InverseGamma => p "beta" / (p "alpha" - 1)
  | Laplace | Logistic | Normal | StudentT | Wald | Poisson => p "mu"
  | LogNormal => exp (p "mu" + (p "sigma") ^ 2 / 2)
  | Moyal => p "mu" + p "sigma" * (euler_gamma + ln 2)
  | Pareto => p "alpha" * p "m" / (p "alpha" - 1)
  | Triangular => (p "lower" + p "c" + p "upper") / 3
  | Weibull => p "beta" * Gam (1 + 1 / p "alpha")
  | _ => 0
  end.

Definition textbook_var (f : family) (p : string -> R) : R :=
  match f with
  | AsymmetricLaplace => (1 + (p "kappa") ^ 4) / (p "kappa") ^ 2 * (p "b") ^ 2
  | Bernoulli => p "p" * (1 - p "p")
  | Beta => p "alpha" * p "beta" / ((p "alpha" + p "beta") ^ 2 * (p "alpha" + p "beta" + 1))
  | BetaScaled =>
      (p "upper" - p "lower") ^ 2 *
      (p "alpha" * p "beta" / ((p "alpha" + p "beta") ^ 2 * (p "alpha" + p "beta" + 1)))
  | ChiSquared => 2 * p "nu"
  | DiscreteUniform => ((p "upper" - p "lower" + 1) ^ 2 - 1) / 12
  | Uniform => (p "upper" - p "lower") ^ 2 / 12
  | ExGaussian => (p "sigma") ^ 2 + (p "nu") ^ 2
  | Exponential => / (p "lam") ^ 2
  | Gamma => p "alpha" / (p "beta") ^ 2
  | Geometric => (1 - p "p") / (p "p") ^ 2
  | Gumbel => PI ^ 2 / 6 * (p "beta") ^ 2
  | HalfNormal => (p "sigma") ^ 2 * (1 - 2 / PI)
  | HalfStudentT =>
      (p "sigma") ^ 2 * (p "nu" / (p "nu" - 2) -
        4 * p "nu" / (PI * (p "nu" - 1) ^ 2) * (Gam ((p "nu" + 1) / 2) / Gam (p "nu" / 2)) ^ 2)
  | InverseGamma => (p "beta") ^ 2 / ((p "alpha" - 1) ^ 2 * (p "alpha" - 2))
  | Laplace => 2 * (p "b") ^ 2
  | Logistic => (p "s") ^ 2 * PI ^ 2 / 3
  | LogNormal => (exp ((p "sigma") ^ 2) - 1) * exp (2 * p "mu" + (p "sigma") ^ 2)
  | Moyal => PI ^ 2 / 2 * (p "sigma") ^ 2
  | Normal => (p "sigma") ^ 2
  | Pareto => (p "m") ^ 2 * p "alpha" / ((p "alpha" - 1) ^ 2 * (p "alpha" - 2))
  | Poisson => p "mu"
  | StudentT => (p "sigma") ^ 2 * (p "nu" / (p "nu" - 2))
  | Triangular =>
      ((p "upper") ^ 2 + (p "lower") ^ 2 + (p "c") ^ 2 - p "lower" * p "upper" - p "lower" * p "c" - p "upper" * p "c")
      / 18
  | Wald => (p "mu") ^ 3 / p "lam"
  | Weibull => (p "beta") ^ 2 * (Gam (1 + 2 / p "alpha") - (Gam (1 + 1 / p "alpha")) ^ 2)
  | _ => 0
  end.
End Textbook.

(** Parameters for which the family is a distribution with finite mean and variance. *)
Definition proper (f : family) (p : string -> R) : Prop :=
  match f with
  | AsymmetricLaplace => 0 < p "kappa" /\ 0 < p "b"
  | Bernoulli => 0 < p "p" < 1
  | Beta => 0 < p "alpha" /\ 0 < p "beta"
  | BetaScaled => 0 < p "alpha" /\ 0 < p "beta" /\ p "lower" < p "upper"
  | ChiSquared => 0 < p "nu"
  | Uniform => p "lower" < p "upper"
  | DiscreteUniform => p "lower" <= p "upper"
  | Exponential => 0 < p "lam"
  | Gamma => 0 < p "alpha" /\ 0 < p "beta"
  | Geometric => 0 < p "p" <= 1
  | Gumbel => 0 < p "beta"
  | HalfNormal => 0 < p "sigma"
  | InverseGamma => 2 < p "alpha" /\ 0 < p "beta"
  | Laplace => 0 < p "b"
  | Logistic => 0 < p "s"
  | LogNormal | Moyal | Normal => 0 < p "sigma"
  | ExGaussian => 0 < p "sigma" /\ 0 < p "nu"
  | StudentT | HalfStudentT => 2 < p "nu" /\ 0 < p "sigma"
  | Pareto => 2 < p "alpha" /\ 0 < p "m"
  | Poisson => 0 < p "mu"
  | Triangular => p "lower" < p "c" < p "upper"
  | Wald => 0 < p "mu" /\ 0 < p "lam"
  | Weibull => 0 < p "alpha" /\ 0 < p "beta"
  | _ => True
  end.

(** Both moments are reproduced. *)
Definition fits_both (f : family) : Prop :=
  In f [AsymmetricLaplace; Beta; BetaScaled; Gamma; Gumbel; InverseGamma; Laplace; Logistic; LogNormal; Moyal; Normal;
        Pareto; Triangular; Wald].
(** One parameter only: the mean is reproduced. *)
Definition fits_mean (f : family) : Prop := In f [Bernoulli; ChiSquared; Exponential; Geometric; Poisson].

(** Pairs (mean, sd) that some member of the family has; for the two Betas, one whose parameters are at least 1/2.
    [lo] and [up] are the bounds of the instance (BetaScaled). *)
Definition beta_region (m s : R) : Prop :=
  0 < m < 1 /\ 0 < s /\ 1 / 2 <= m * (m * (1 - m) / s ^ 2 - 1) /\ 1 / 2 <= (1 - m) * (m * (1 - m) / s ^ 2 - 1).
Definition attainable (f : family) (lo up : R) (mean sigma : R) : Prop :=
  match f with
  | Beta => beta_region mean sigma
  | BetaScaled => lo < up /\ beta_region ((mean - lo) / (up - lo)) (sigma / (up - lo))
  | Gamma | InverseGamma | LogNormal | Pareto | Wald => 0 < mean /\ 0 < sigma
  | Bernoulli => 0 < mean < 1
  | ChiSquared | Exponential | Poisson => 0 < mean
  | Geometric => 1 <= mean
  | _ => 0 < sigma
  end.
