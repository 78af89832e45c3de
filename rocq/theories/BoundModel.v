(** Model of the parameter bounds ([params_support] of preliz/distributions/*.py), of the default starting values
    (internal/distribution_helper.py) and of the two fitting loops that use them (internal/optimization.py). *)
From Coq Require Import List Bool String Reals.
From Verif Require Import Base XR FamModel OptModel.
Import ListNotations.
Open Scope R_scope.
Open Scope string_scope.

(** A pair of [params_support]; only HyperGeometric can have None on the right. *)
Definition bound := (xr * option xr)%type.
Definition real_line : bound := (NInf, Some PInf).
Definition positive : bound := (Fin eps, Some PInf).
Definition open_unit : bound := (Fin eps, Some (Fin (1 - eps))).
Definition unit_bound : bound := (Fin eps, Some (Fin 1)).

Definition named (ns : list string) (i : nat) (s : string) : bool :=
  match nth_error ns i with Some n => String.eqb n s | None => false end.

(** [self.params_support] after [_parametrization]. It is assigned together with [param_names]: [ns] are those
    names. [N] is the argument of HyperGeometric.
    asymmetric_laplace.py 77, 83; bernoulli.py 62 (not changed at 66); beta.py 87, 93, 101; betabinomial.py 65;
    betascaled.py 66; binomial.py 58; cauchy.py 54; chi_squared.py 52; discrete_uniform.py 51; discrete_weibull.py 59;
    exgaussian.py 69; exponential.py 63; gamma.py 82; geometric.py 48; gumbel.py 60; halfcauchy.py 50; halfnormal.py 71;
    halfstudentt.py 89; hypergeometric.py 59; inversegamma.py 80; kumaraswamy.py 55; laplace.py 55; logistic.py 55;
    logitnormal.py 72; loglogistic.py 59; lognormal.py 63; moyal.py 62; negativebinomial.py 87 (not changed at 92);
    normal.py 78; pareto.py 54; poisson.py 54; rice.py 72; skew_studentt.py 87; skewnormal.py 83; studentt.py 85;
    triangular.py 64; truncatednormal.py 64-69; uniform.py 51; vonmises.py 56; wald.py 73; weibull.py 59;
    zi_binomial.py 60; zi_negativebinomial.py 92 (not changed at 97); zi_poisson.py 59. *)
Definition params_support (f : family) (ns : list string) (N : option xr) : list bound :=
  match f with
  | AsymmetricLaplace => if named ns 0 "q" then [open_unit; real_line; positive] else [positive; real_line; positive]
  | Bernoulli | Geometric => [unit_bound]
  | Beta => if named ns 1 "sigma" then [open_unit; open_unit]
            else if named ns 1 "nu" then [open_unit; positive] else [positive; positive]
  | BetaBinomial => [positive; positive; positive]
  | BetaScaled => [positive; positive; real_line; real_line]
  | Binomial => [positive; open_unit]
  | Cauchy | Gumbel | Laplace | Logistic | LogitNormal | LogNormal | Moyal | Normal => [real_line; positive]
  | ChiSquared | Exponential | HalfCauchy | HalfNormal | Poisson => [positive]
  | DiscreteUniform | Uniform => [real_line; real_line]
  | DiscreteWeibull => [open_unit; positive]
  | ExGaussian => [real_line; positive; (Fin (1 / 10000), Some PInf)]
  | Gamma | HalfStudentT | InverseGamma | Kumaraswamy | LogLogistic | NegativeBinomial | Pareto | Rice | Wald
  | Weibull => [positive; positive]
  | HyperGeometric => [positive; (Fin eps, N); (Fin eps, N)]
  | SkewStudentT => [real_line; positive; positive; positive]
  | SkewNormal => [real_line; positive; real_line]
  | StudentT => [positive; real_line; positive]
  | Triangular => [real_line; real_line; real_line]
  | TruncatedNormal => [real_line; positive; real_line; real_line]
  | VonMises => [(Fin (- PI), Some (Fin PI)); positive]
  | ZeroInflatedBinomial => [open_unit; positive; open_unit]
  | ZeroInflatedNegativeBinomial => [open_unit; positive; positive]
  | ZeroInflatedPoisson => [open_unit; positive]
  end.

(** What scipy.optimize accepts as a point within the bounds; None is no bound. *)
Definition inside (x : xr) (b : bound) : bool :=
  xleb (fst b) x && match snd b with Some u => xleb x u | None => true end.
Definition all_inside (xs : list xr) (bs : list bound) : Prop :=
  Forall2 (fun x b => inside x b = true) xs bs.

(** distribution_helper.py 204-253, the univariate families, in the order of the arguments of [_update]. *)
Definition init_vals (f : family) : list (string * R) :=
  match f with
  | AsymmetricLaplace => [("kappa", 13 / 10); ("mu", 0); ("b", 1)]
  | Beta => [("alpha", 2); ("beta", 2)]
  | BetaScaled => [("alpha", 2); ("beta", 2); ("lower", -1); ("upper", 2)]
  | Cauchy => [("alpha", 0); ("beta", 1)]
  | ChiSquared => [("nu", 5)]
  | ExGaussian => [("mu", 0); ("sigma", 1); ("nu", 2)]
  | Exponential => [("lam", 1)]
  | Gamma => [("alpha", 2); ("beta", 5)]
  | Gumbel => [("mu", 2); ("beta", 5)]
  | HalfCauchy => [("beta", 1)]
  | HalfNormal => [("sigma", 1)]
  | HalfStudentT => [("nu", 7); ("sigma", 1)]
  | InverseGamma => [("alpha", 3); ("beta", 5)]
  | Kumaraswamy => [("a", 2); ("b", 2)]
  | Laplace => [("mu", 0); ("b", 1)]
  | LogLogistic => [("alpha", 1); ("beta", 5)]
  | Logistic => [("mu", 0); ("s", 1)]
  | LogNormal => [("mu", 0); ("sigma", 1 / 2)]
  | LogitNormal => [("mu", 0); ("sigma", 1 / 2)]
  | Moyal => [("mu", 0); ("sigma", 1)]
  | Normal => [("mu", 0); ("sigma", 1)]
  | Pareto => [("alpha", 5); ("m", 2)]
  | Rice => [("nu", 2); ("sigma", 1)]
  | SkewNormal => [("mu", 0); ("sigma", 1); ("alpha", 6)]
  | SkewStudentT => [("mu", 0); ("sigma", 1); ("a", 2); ("b", 2)]
  | StudentT => [("nu", 7); ("mu", 0); ("sigma", 1)]
  | Triangular => [("lower", -2); ("c", 0); ("upper", 2)]
  | TruncatedNormal => [("mu", 0); ("sigma", 1); ("lower", -2); ("upper", 3)]
  | Uniform => [("lower", 0); ("upper", 1)]
  | VonMises => [("mu", 0); ("kappa", 1)]
  | Wald => [("mu", 1); ("lam", 3)]
  | Weibull => [("alpha", 5); ("beta", 2)]
  | Bernoulli => [("p", 1 / 2)]
  | BetaBinomial => [("alpha", 2); ("beta", 2); ("n", 10)]
  | Binomial => [("n", 5); ("p", 1 / 2)]
  | DiscreteUniform => [("lower", -2); ("upper", 2)]
  | DiscreteWeibull => [("q", 9 / 10); ("beta", 13 / 10)]
  | Geometric => [("p", 1 / 2)]
  | HyperGeometric => [("N", 50); ("k", 10); ("n", 20)]
  | NegativeBinomial => [("mu", 5); ("alpha", 2)]
  | Poisson => [("mu", 9 / 2)]
  | ZeroInflatedBinomial => [("psi", 7 / 10); ("n", 10); ("p", 1 / 2)]
  | ZeroInflatedNegativeBinomial => [("psi", 7 / 10); ("mu", 5); ("alpha", 8)]
  | ZeroInflatedPoisson => [("psi", 8 / 10); ("mu", 9 / 2)]
  end.

Section Loops.
Variable f : family.

(** optimization.py 239-251 (optimize_ml). [fit] is [dist._fit_moments(np.mean(sample), np.std(sample))].
    [minimize x0 bounds] stands for scipy's minimize on the sample: the candidates at which the likelihood is
    evaluated, each of which is installed by [_update], and the vector it returns. Exceptions of logpdf are left out.
    [N] is the argument of the last [_parametrization] of a HyperGeometric. *)
Definition optimize_ml (fit : dist -> res dist) (minimize : list (option xr) -> list bound -> list (list xr) * list xr)
    (N : option xr) (d : dist) : res dist :=
  do d1 <- fit d;
  let '(tried, x) := minimize (params d1) (params_support f (names d1) N) in
  do d2 <- fold_left (fun r c => do s <- r; update f s (map Some c)) tried (Ok d1);
  update f d2 (map Some x).

(** optimization.py 169-180: the point from which optimize_mean_sigma starts; [params] is the optional starting
    guess. The families given to it are not modifiers. *)
Definition mean_sigma_start (d : dist) (guess : option (list xr)) : res (list nat * list xr * list (option xr)) :=
  let '(none_idx, fixed) := get_fixed_params (attr d) (names d) in
  do d1 <- update f d (match guess with
                       | Some g => map Some g
                       | None => map (fun p => Some (Fin (snd p))) (init_vals f) end);
  Ok (none_idx, fixed, map (fun i => match nth_error (params d1) i with Some v => v | None => None end) none_idx).
(** optimization.py 182-192: the bounds of the parameters that are free. *)
Definition free_bounds (d : dist) (none_idx : list nat) : list bound :=
  map (fun i => match nth_error (params_support f (names d) (attr d "N")) i with Some b => b | None => real_line end)
      none_idx.
End Loops.

(** vonmises.py 119-120: the guess of VonMises (finite mean, sigma > 0; [x ** 1.8] is exp(1.8 ln x)). *)
Definition vonmises_guess (mean sigma : R) : list xr := [Fin mean; Fin (1 / exp (18 / 10 * ln sigma))].
(** binomial.py 70-74. *)
Definition binomial_guess (mean sigma : R) : res (list xr) :=
  do p <- pydiv (Fin mean) (Fin (mean + sigma * 2)); Ok [Fin (mean + sigma * 2); p].
