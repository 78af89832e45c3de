(** Specification vocabulary for C06-C10: the documented parameter sets of every family, independent of the
    code of the constructors (docstrings of preliz/distributions/*.py). *)
From Coq Require Import List Bool String Reals.
From Verif Require Import Base XR FamModel.
Import ListNotations.
Open Scope R_scope.
Open Scope string_scope.

(** Documented parameter sets; the first one is the canonical one. *)
Definition sets (f : family) : list (list string) :=
  match f with
  | AsymmetricLaplace => [["kappa"; "mu"; "b"]; ["q"; "mu"; "b"]]
  | Bernoulli => [["p"]; ["logit_p"]]
  | Beta => [["alpha"; "beta"]; ["mu"; "sigma"]; ["mu"; "nu"]]
  | Exponential => [["lam"]; ["scale"]]
  | Gamma => [["alpha"; "beta"]; ["mu"; "sigma"]]
  | HalfNormal => [["sigma"]; ["tau"]]
  | HalfStudentT => [["nu"; "sigma"]; ["nu"; "lam"]]
  | InverseGamma => [["alpha"; "beta"]; ["mu"; "sigma"]]
  | LogitNormal => [["mu"; "sigma"]; ["mu"; "tau"]]
  | NegativeBinomial => [["mu"; "alpha"]; ["p"; "n"]]
  | Normal => [["mu"; "sigma"]; ["mu"; "tau"]]
  | Rice => [["nu"; "sigma"]; ["b"; "sigma"]]
  | SkewStudentT => [["mu"; "sigma"; "a"; "b"]; ["mu"; "lam"; "a"; "b"]]
  | SkewNormal => [["mu"; "sigma"; "alpha"]; ["mu"; "tau"; "alpha"]]
  | StudentT => [["nu"; "mu"; "sigma"]; ["nu"; "mu"; "lam"]]
  | Wald => [["mu"; "lam"]; ["mu"; "phi"]; ["lam"; "phi"]]
  | ZeroInflatedNegativeBinomial => [["psi"; "mu"; "alpha"]; ["psi"; "p"; "n"]]
  | BetaBinomial => [["alpha"; "beta"; "n"]]
  | BetaScaled => [["alpha"; "beta"; "lower"; "upper"]]
  | Binomial => [["n"; "p"]]
  | Cauchy => [["alpha"; "beta"]]
  | ChiSquared => [["nu"]]
  | DiscreteUniform => [["lower"; "upper"]]
  | DiscreteWeibull => [["q"; "beta"]]
  | ExGaussian => [["mu"; "sigma"; "nu"]]
  | Geometric => [["p"]]
  | Gumbel => [["mu"; "beta"]]
  | HalfCauchy => [["beta"]]
  | HyperGeometric => [["N"; "k"; "n"]]
  | Kumaraswamy => [["a"; "b"]]
  | Laplace => [["mu"; "b"]]
  | Logistic => [["mu"; "s"]]
  | LogLogistic => [["alpha"; "beta"]]
  | LogNormal => [["mu"; "sigma"]]
  | Moyal => [["mu"; "sigma"]]
  | Pareto => [["alpha"; "m"]]
  | Poisson => [["mu"]]
  | Triangular => [["lower"; "c"; "upper"]]
  | TruncatedNormal => [["mu"; "sigma"; "lower"; "upper"]]
  | Uniform => [["lower"; "upper"]]
  | VonMises => [["mu"; "kappa"]]
  | Weibull => [["alpha"; "beta"]]
  | ZeroInflatedBinomial => [["psi"; "n"; "p"]]
  | ZeroInflatedPoisson => [["psi"; "mu"]]
  end.

(** Parameters with a default value in the signature. *)
Definition optional (f : family) : list string :=
  match f with BetaScaled => ["lower"; "upper"] | _ => [] end.

Definition has_alternatives (f : family) : Prop := (1 < List.length (sets f))%nat.

Definition is_given (a : args) (k : string) : Prop := a k <> None.

(** The given arguments fit in one documented parameter set. *)
Definition compatible (f : family) (a : args) : Prop :=
  exists P, In P (sets f) /\ forall k, In k (signature f) -> is_given a k -> In k P.

(** One documented parameter set is completely given. *)
Definition complete (f : family) (a : args) : Prop :=
  exists P, In P (sets f) /\ forall k, In k P -> ~ In k (optional f) -> is_given a k.

(** Exactly the parameters of [P] are given, with finite values [v]. *)
Definition just (P : list string) (v : string -> R) : args :=
  fun k => if existsb (String.eqb k) P then Some (Fin (v k)) else None.

(** The region in which a parameter set describes a distribution. *)
Definition valid (f : family) (P : list string) (v : string -> R) : Prop :=
  match f, P with
  | AsymmetricLaplace, ["q"; _; _] => 0 < v "q" < 1 /\ 0 < v "b"
  | AsymmetricLaplace, _ => 0 < v "kappa" /\ 0 < v "b"
  | Bernoulli, ["p"] => 0 < v "p" < 1
  | Bernoulli, _ => True
  | Beta, ["alpha"; _] => 0 < v "alpha" /\ 0 < v "beta"
  | Beta, [_; "sigma"] => 0 < v "mu" < 1 /\ 0 < v "sigma" /\ (v "sigma") ^ 2 < v "mu" * (1 - v "mu")
  | Beta, _ => 0 < v "mu" < 1 /\ 0 < v "nu"
  | Exponential, ["lam"] => 0 < v "lam"
  | Exponential, _ => 0 < v "scale"
  | Gamma, ["alpha"; _] => 0 < v "alpha" /\ 0 < v "beta"
  | Gamma, _ => 0 < v "mu" /\ 0 < v "sigma"
  | InverseGamma, ["alpha"; _] => 2 < v "alpha" /\ 0 < v "beta"
  | InverseGamma, _ => 0 < v "mu" /\ 0 < v "sigma"
  | NegativeBinomial, ["mu"; _] => 0 < v "mu" /\ 0 < v "alpha"
  | NegativeBinomial, _ => 0 < v "p" < 1 /\ 0 < v "n"
  | ZeroInflatedNegativeBinomial, [_; "mu"; _] => 0 < v "mu" /\ 0 < v "alpha"
  | ZeroInflatedNegativeBinomial, _ => 0 < v "p" < 1 /\ 0 < v "n"
  | Rice, ["nu"; _] => 0 < v "nu" /\ 0 < v "sigma"
  | Rice, _ => 0 < v "b" /\ 0 < v "sigma"
  | Wald, ["mu"; "lam"] => 0 < v "mu" /\ 0 < v "lam"
  | Wald, ["mu"; "phi"] => 0 < v "mu" /\ 0 < v "phi"
  | Wald, _ => 0 < v "lam" /\ 0 < v "phi"
  | HalfNormal, ["sigma"] => 0 < v "sigma"
  | HalfNormal, _ => 0 < v "tau"
  | HalfStudentT, [_; "sigma"] | SkewStudentT, [_; "sigma"; _; _] | StudentT, [_; _; "sigma"] => 0 < v "sigma"
  | (HalfStudentT | SkewStudentT | StudentT), _ => 0 < v "lam"
  | (LogitNormal | Normal), [_; "sigma"] | SkewNormal, [_; "sigma"; _] => 0 < v "sigma"
  | (LogitNormal | Normal | SkewNormal), _ => 0 < v "tau"
  | (BetaBinomial | Binomial | ZeroInflatedBinomial), _ => 0 <= v "n"
  | HyperGeometric, _ => 0 <= v "N" /\ 0 <= v "k" /\ 0 <= v "n"
  | _, _ => True
  end.

(** What is reported for a given parameter value: the value itself, except that precisions carry a bias of at
    most eps, counts are cut to integers, and DiscreteUniform bounds are rounded outwards. *)
Definition readback (f : family) (k : string) (x : R) : R :=
  match f, k with
  | (HalfNormal | LogitNormal | Normal | SkewNormal), "tau" => x / (1 + eps * x)
  | (HalfStudentT | SkewStudentT | StudentT), "lam" => x / (1 + eps * x)
  | (BetaBinomial | Binomial | ZeroInflatedBinomial), "n" => IZR (Int_part x)
  | HyperGeometric, _ => IZR (Int_part x)
  | DiscreteUniform, "lower" => IZR (Int_part x)
  | DiscreteUniform, _ => - IZR (Int_part (- x))
  | _, _ => x
  end.

(** Documented transformation from the alternative parameters to canonical ones. *)
Definition documented (f : family) (P : list string) (v : string -> R) : list (string * R) :=
  match f, P with
  | AsymmetricLaplace, ["q"; _; _] => [("kappa", sqrt (v "q" / (1 - v "q")))]
  | Bernoulli, ["logit_p"] => [("p", / (1 + exp (- v "logit_p")))]
  | Beta, [_; "sigma"] =>
      [("alpha", v "mu" * (v "mu" * (1 - v "mu") / (v "sigma") ^ 2 - 1));
       ("beta", (1 - v "mu") * (v "mu" * (1 - v "mu") / (v "sigma") ^ 2 - 1))]
  | Beta, [_; "nu"] => [("alpha", v "mu" * v "nu"); ("beta", (1 - v "mu") * v "nu")]
  | Exponential, ["scale"] => [("lam", / v "scale")]
  | Gamma, ["mu"; _] => [("alpha", (v "mu" / v "sigma") ^ 2); ("beta", v "mu" / (v "sigma") ^ 2)]
  | InverseGamma, ["mu"; _] =>
      [("alpha", (v "mu" / v "sigma") ^ 2 + 2); ("beta", v "mu" * ((v "mu" / v "sigma") ^ 2 + 1))]
  | (NegativeBinomial), ["p"; _] => [("mu", v "n" * (1 - v "p") / v "p"); ("alpha", v "n")]
  | ZeroInflatedNegativeBinomial, [_; "p"; _] => [("mu", v "n" * (1 - v "p") / v "p"); ("alpha", v "n")]
  | Rice, ["b"; _] => [("nu", v "b" * v "sigma")]
  | Wald, ["mu"; "phi"] => [("lam", v "mu" * v "phi")]
  | Wald, ["lam"; "phi"] => [("mu", v "lam" / v "phi")]
  | HalfNormal, ["tau"] | LogitNormal, [_; "tau"] | Normal, [_; "tau"] | SkewNormal, [_; "tau"; _] =>
      [("sigma", / sqrt (v "tau"))]
  | HalfStudentT, [_; "lam"] | StudentT, [_; _; "lam"] | SkewStudentT, [_; "lam"; _; _] =>
      [("sigma", / sqrt (v "lam"))]
  | _, _ => []
  end.

Definition canonical (f : family) : list string := hd [] (sets f).

(** Going to an alternative set and back leaves canonical parameters alone; scales behind a precision become
    sqrt(eps + sigma^2). *)
Definition round_trip (f : family) (P : list string) (k : string) (x : R) : R :=
  if String.eqb k "sigma" then
    match f with
    | HalfNormal | LogitNormal | Normal | SkewNormal =>
        if existsb (String.eqb "tau") P then sqrt (eps + x ^ 2) else x
    | HalfStudentT | SkewStudentT | StudentT =>
        if existsb (String.eqb "lam") P then sqrt (eps + x ^ 2) else x
    | _ => x
    end
  else x.

(** The value of an attribute, when it is finite. *)
Definition fin_attr (d : dist) (k : string) : R :=
  match attr d k with Some (Fin x) => x | _ => 0 end.

(** Support interval determined by current parameters, for families whose support depends on them. *)
Definition tracked (f : family) : Prop :=
  In f [Uniform; DiscreteUniform; Pareto; Triangular; TruncatedNormal; BetaScaled; Binomial; BetaBinomial;
        ZeroInflatedBinomial].
Definition support_of (f : family) (p : string -> xr) : xr * xr :=
  match f with
  | Uniform | DiscreteUniform | Triangular | TruncatedNormal | BetaScaled => (p "lower", p "upper")
  | Pareto => (p "m", PInf)
  | Binomial | BetaBinomial => (Fin 0, p "n")
  | ZeroInflatedBinomial => if xeqb (p "psi") (Fin 0) then (Fin 0, Fin 0) else (Fin 0, p "n")
  | _ => (NaN, NaN)
  end.

(** The other families, HyperGeometric apart, always have the same support. *)
Definition fixed_support (f : family) : Prop :=
  ~ In f [Uniform; DiscreteUniform; Pareto; Triangular; TruncatedNormal; BetaScaled; Binomial; BetaBinomial;
          ZeroInflatedBinomial; HyperGeometric].
Definition natural_support (f : family) : xr * xr :=
  match f with
  | AsymmetricLaplace | Cauchy | ExGaussian | Gumbel | Laplace | Logistic | Moyal | Normal | SkewNormal
  | SkewStudentT | StudentT => (NInf, PInf)
  | Bernoulli | Beta | Kumaraswamy | LogitNormal => (Fin 0, Fin 1)
  | ChiSquared | DiscreteWeibull | Exponential | Gamma | HalfCauchy | HalfNormal | HalfStudentT | InverseGamma
  | LogLogistic | LogNormal | NegativeBinomial | Poisson | Rice | Wald | Weibull | ZeroInflatedNegativeBinomial
  | ZeroInflatedPoisson => (Fin 0, PInf)
  | Geometric => (Fin 1, PInf)
  | VonMises => (Fin (- PI), Fin PI)
  | _ => (NaN, NaN)
  end.

(** A history of updates; the first one that raises ends it. *)
Fixpoint updates (f : family) (d : dist) (us : list (list (option xr))) : res dist :=
  match us with
  | [] => Ok d
  | u :: r => match update f d u with Ok d' => updates f d' r | Err e => Err e end
  end.

(** Everything a user can read off an instance. *)
Definition same_view (f : family) (d e : dist) : Prop :=
  names d = names e /\ params d = params e /\ supp d = supp e /\ frozen d = frozen e /\
  forall k, In k (signature f) -> attr d k = attr e k.

(** TruncatedNormal and BetaScaled keep their bounds when an update leaves them out. *)
Definition sets_bounds (f : family) (u : list (option xr)) : Prop :=
  match f with
  | TruncatedNormal | BetaScaled => exists x y l h, u = [x; y; Some l; Some h]
  | _ => True
  end.
