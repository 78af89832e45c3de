(** Model of preliz/distributions/catalog.py and of the descriptive methods of Distribution (info, params_dict). *)
From Coq Require Import List Bool String Reals Arith.
From Verif Require Import Base XR FamModel BoundModel.
Import ListNotations.
Open Scope R_scope.
Open Scope string_scope.

(** The classes of distributions/__init__.py 52-99: univariate families, Categorical (a vector of probabilities, not in
    [family]), the multivariate ones and the modifiers. *)
Inductive cls := Fam (f : family) | CCategorical | CDirichlet | CMvNormal | CMixture | CTruncated | CCensored | CHurdle.

(** [cls.__name__] *)
Definition family_name (f : family) : string :=
  match f with
  | AsymmetricLaplace => "AsymmetricLaplace" | Bernoulli => "Bernoulli" | Beta => "Beta"
  | Exponential => "Exponential" | Gamma => "Gamma" | HalfNormal => "HalfNormal" | HalfStudentT => "HalfStudentT"
  | InverseGamma => "InverseGamma" | LogitNormal => "LogitNormal" | NegativeBinomial => "NegativeBinomial"
  | Normal => "Normal" | Rice => "Rice" | SkewStudentT => "SkewStudentT" | SkewNormal => "SkewNormal"
  | StudentT => "StudentT" | Wald => "Wald" | ZeroInflatedNegativeBinomial => "ZeroInflatedNegativeBinomial"
  | BetaBinomial => "BetaBinomial" | BetaScaled => "BetaScaled" | Binomial => "Binomial" | Cauchy => "Cauchy"
  | ChiSquared => "ChiSquared" | DiscreteUniform => "DiscreteUniform" | DiscreteWeibull => "DiscreteWeibull"
  | ExGaussian => "ExGaussian" | Geometric => "Geometric" | Gumbel => "Gumbel" | HalfCauchy => "HalfCauchy"
  | HyperGeometric => "HyperGeometric" | Kumaraswamy => "Kumaraswamy" | Laplace => "Laplace"
  | Logistic => "Logistic" | LogLogistic => "LogLogistic" | LogNormal => "LogNormal" | Moyal => "Moyal"
  | Pareto => "Pareto" | Poisson => "Poisson" | Triangular => "Triangular" | TruncatedNormal => "TruncatedNormal"
  | Uniform => "Uniform" | VonMises => "VonMises" | Weibull => "Weibull"
  | ZeroInflatedBinomial => "ZeroInflatedBinomial" | ZeroInflatedPoisson => "ZeroInflatedPoisson"
  end.
Definition class_name (c : cls) : string :=
  match c with
  | Fam f => family_name f
  | CCategorical => "Categorical" | CDirichlet => "Dirichlet" | CMvNormal => "MvNormal" | CMixture => "Mixture"
  | CTruncated => "Truncated" | CCensored => "Censored" | CHurdle => "Hurdle"
  end.

(** distributions/__init__.py 52-85. *)
Definition all_continuous : list cls := map Fam
  [AsymmetricLaplace; Beta; BetaScaled; Cauchy; ChiSquared; ExGaussian; Exponential; Gamma; Gumbel; HalfCauchy;
   HalfNormal; HalfStudentT; InverseGamma; Kumaraswamy; Laplace; Logistic; LogLogistic; LogNormal; LogitNormal; Moyal;
   Normal; Pareto; Rice; SkewNormal; SkewStudentT; StudentT; Triangular; TruncatedNormal; Uniform; VonMises; Wald;
   Weibull].
(** distributions/__init__.py 86-100. *)
Definition all_discrete : list cls :=
  map Fam [Bernoulli; BetaBinomial; Binomial] ++ [CCategorical] ++
  map Fam [DiscreteUniform; DiscreteWeibull; Geometric; HyperGeometric; NegativeBinomial; Poisson;
           ZeroInflatedBinomial; ZeroInflatedNegativeBinomial; ZeroInflatedPoisson].
(** distributions/__init__.py 102-104. *)
Definition all_continuous_multivariate : list cls := [CDirichlet; CMvNormal].
Definition all_modifiers : list cls := [CMixture; CTruncated; CCensored; CHurdle].
Definition all_classes : list cls := all_continuous ++ all_discrete ++ all_continuous_multivariate ++ all_modifiers.

(** catalog.py 15-184, the groups given by names. The three groups of classes are added by [group_of]. *)
Definition named_groups : list (string * list string) :=
  [("unbounded", ["AsymmetricLaplace"; "Cauchy"; "ExGaussian"; "Gumbel"; "Laplace"; "Logistic"; "Moyal"; "Normal";
                  "SkewNormal"; "SkewStudentT"; "StudentT"]);
   ("positive", ["ChiSquared"; "Exponential"; "Gamma"; "HalfCauchy"; "HalfNormal"; "HalfStudentT"; "InverseGamma";
                 "LogLogistic"; "LogNormal"; "Pareto"; "Rice"; "Wald"; "Weibull"]);
   ("bounded", ["Beta"; "BetaScaled"; "Kumaraswamy"; "LogitNormal"; "Triangular"; "TruncatedNormal"; "Uniform";
                "VonMises"]);
   ("non_negative_continuous",
     ["ChiSquared"; "Exponential"; "Gamma"; "HalfCauchy"; "HalfNormal"; "HalfStudentT"; "InverseGamma"; "LogLogistic";
      "LogitNormal"; "LogNormal"; "Pareto"; "Rice"; "ScaledInverseChiSquared"; "Wald"; "Weibull"]);
   ("non_negative_discrete",
     ["Bernoulli"; "Binomial"; "DiscreteWeibull"; "Geometric"; "NegativeBinomial"; "Poisson"; "ZeroInflatedBinomial";
      "ZeroInflatedNegativeBinomial"; "ZeroInflatedPoisson"]);
   ("bounded_discrete",
     ["BetaBinomial"; "Binomial"; "Categorical"; "DiscreteUniform"; "Hypergeometric"; "ZeroInflatedBinomial"]);
   ("multivariate", ["Dirichlet"; "MultivariateNormal"]);
   ("symmetric", ["Beta"; "BetaScaled"; "Cauchy"; "DiscreteUniform"; "Laplace"; "Logistic"; "MultivariateNormal";
                  "Normal"; "StudentT"; "Uniform"; "VonMises"]);
   ("asymmetric", ["AsymmetricLaplace"; "DiscreteWeibull"; "ExGaussian"; "Exponential"; "Gamma"; "Geometric"; "Gumbel";
                   "InverseGamma"; "Kumaraswamy"; "LogLogistic"; "LogitNormal"; "Moyal"; "Pareto"; "Rice";
                   "ScaledInverseChiSquared"; "SkewNormal"; "SkewStudentT"; "Wald"; "Weibull"]);
   ("heavy_tailed", ["Cauchy"; "HalfCauchy"; "HalfStudentT"; "InverseGamma"; "LogLogistic"; "LogNormal"; "Pareto";
                     "SkewStudentT"; "StudentT"]);
   ("light_tailed", ["AsymmetricLaplace"; "ChiSquared"; "ExGaussian"; "Exponential"; "Gamma"; "HalfNormal"; "Laplace";
                     "Logistic"; "Moyal"; "Normal"; "Rice"; "SkewNormal"; "Triangular"; "TruncatedNormal"; "Wald";
                     "Weibull"]);
   ("zero_inflated", ["ZeroInflatedBinomial"; "ZeroInflatedNegativeBinomial"; "ZeroInflatedPoisson"]);
   ("extreme_value", ["Gumbel"; "LogLogistic"]);
   ("circular", ["VonMises"]);
   ("binary", ["Bernoulli"; "Binomial"]);
   ("count", ["DiscreteWeibull"; "Geometric"; "NegativeBinomial"; "Poisson"; "ZeroInflatedNegativeBinomial";
              "ZeroInflatedPoisson"])].

Fixpoint lookup {A} (k : string) (l : list (string * A)) : option A :=
  match l with [] => None | (k', v) :: r => if String.eqb k k' then Some v else lookup k r end.

(** catalog.py 187-188 (_get_dist_class): getattr on the module; a name that is not there is an AttributeError. Other
    attributes of the module (submodules, all lower case) do not occur in the groups. *)
Definition get_dist_class (name : string) : res cls :=
  match find (fun c => String.eqb (class_name c) name) all_classes with
  | Some c => Ok c
  | None => Err AttributeError
  end.

Fixpoint map_res {A B} (g : A -> res B) (l : list A) : res (list B) :=
  match l with [] => Ok [] | x :: r => do y <- g x; do ys <- map_res g r; Ok (y :: ys) end.

(** catalog.py 294-317 (get). An instance of an uninitialised class is represented by the class. *)
Inductive listing := Instances (l : list cls) | Names (l : list string).
Definition group_of (category : string) : option (list cls + list string) :=
  if String.eqb category "continuous" then Some (inl all_continuous)
  else if String.eqb category "discrete" then Some (inl all_discrete)
  else if String.eqb category "continuous_multivariate" then Some (inl all_continuous_multivariate)
  else match lookup category named_groups with Some l => Some (inr l) | None => None end.
Definition get (category output : string) : res listing :=
  if negb (String.eqb output "instances" || String.eqb output "names") then Err ValueError
  else match group_of category with
  | None => Err ValueError
  | Some g =>
      if String.eqb output "instances" then
        match g with
        | inl l => Ok (Instances l)
        | inr l => do cs <- map_res get_dist_class l; Ok (Instances cs)
        end
      else match g with
        | inl l => Ok (Names (map class_name l))
        | inr l => Ok (Names l)
        end
  end.

Section Find.
Variable ptd : xr -> xr -> xr * xr.

(** [dist_cls()]: param_names and support. Categorical has support (None, None) (categorical.py 44, 51). *)
Definition uninitialised (c : cls) : res (list string * option (xr * xr)) :=
  match c with
  | Fam f => do d <- construct ptd f (fun _ => None); Ok (names d, Some (supp d))
  | _ => Ok (["p"], None)
  end.

(** catalog.py 388-400 (_matches_support). *)
Definition matches_support (s : option (xr * xr)) (support_type : string) : bool :=
  match s with
  | None => false
  | Some (lower, upper) =>
      if String.eqb support_type "positive" then xleb (Fin 0) lower && xeqb upper PInf
      else if String.eqb support_type "bounded" then negb (xeqb lower NInf) && negb (xeqb upper PInf)
      else if String.eqb support_type "unbounded" then xeqb lower NInf && xeqb upper PInf
      else if String.eqb support_type "non_negative" then xleb (Fin 0) lower
      else true
  end.

(** catalog.py 347-385 (find). *)
Fixpoint find_loop (num_params : option nat) (support : option string) (l : list cls) : res (list cls) :=
  match l with
  | [] => Ok []
  | c :: r =>
      do (ns, s) <- uninitialised c;
      let skip := (match num_params with Some n => negb (Nat.eqb (List.length ns) n) | None => false end) ||
                  (match support with Some t => negb (matches_support s t) | None => false end) in
      do rest <- find_loop num_params support r;
      Ok (if skip then rest else c :: rest)
  end.
Definition catalog_find (kind : option string) (num_params : option nat) (support : option string) : res (list cls) :=
  let candidates :=
    match kind with
    | Some k => if String.eqb k "continuous" then all_continuous
                else if String.eqb k "discrete" then all_discrete else (all_continuous ++ all_discrete)%list
    | None => (all_continuous ++ all_discrete)%list
    end in
  find_loop num_params support candidates.
End Find.

(** The class attribute [parametrizations]: asymmetric_laplace.py 65, bernoulli.py 50, beta.py 73, exponential.py 51,
    gamma.py 68, halfnormal.py 59, halfstudentt.py 75, inversegamma.py 66, logitnormal.py 58, negativebinomial.py 75,
    normal.py 64, studentt.py 70, wald.py 59; the other univariate families have none. *)
Definition parametrizations (f : family) : option (list (list string)) :=
  match f with
  | AsymmetricLaplace => Some [["kappa"; "mu"; "b"]; ["q"; "mu"; "b"]]
  | Bernoulli => Some [["p"]; ["logit_p"]]
  | Beta => Some [["alpha"; "beta"]; ["mu"; "sigma"]; ["mu"; "nu"]]
  | Exponential => Some [["lam"]; ["scale"]]
  | Gamma | InverseGamma => Some [["alpha"; "beta"]; ["mu"; "sigma"]]
  | HalfNormal => Some [["sigma"]; ["tau"]]
  | HalfStudentT => Some [["nu"; "sigma"]; ["nu"; "lam"]]
  | LogitNormal | Normal => Some [["mu"; "sigma"]; ["mu"; "tau"]]
  | NegativeBinomial => Some [["mu"; "alpha"]; ["p"; "n"]]
  | StudentT => Some [["nu"; "mu"; "sigma"]; ["nu"; "mu"; "lam"]]
  | Wald => Some [["mu"; "lam"]; ["mu"; "phi"]; ["lam"; "phi"]]
  | _ => None
  end.

(** distributions.py 116-121 (params_dict): zip stops at the shorter one. *)
Definition params_dict (d : dist) : option (list (string * option xr)) :=
  if frozen d then Some (combine (names d) (params d)) else None.

(** distributions.py 1194-1207: the value shown for a bound. *)
Inductive shown := Str (s : string) | Val (x : xr).
Definition format_support_value (v : xr) : shown :=
  match v with
  | PInf => Str "inf"
  | NInf => Str "-inf"
  | Fin r => if (Rltb 0 (Rabs r) && Rltb (Rabs r) (1 / 10000000000))%bool then Val (Fin 0) else Val (Fin r)
  | NaN => Val NaN
  end.

(** distributions.py 123-151 (info). [getattr] on an attribute that was never set is an AttributeError. Simplification:
    a missing attribute and one set to None are the same here, so this model raises where the code could put None. *)
Record info_dict := mkInfo {
  i_names : list string;
  i_bounds : list (shown * option shown);
  i_support : shown * shown;
  i_params : option (list (option xr));
  i_parametrizations : option (list (list string));
  i_values : option (list (list string * list xr)) }.
Definition getattr (d : dist) (k : string) : res xr :=
  match attr d k with Some x => Ok x | None => Err AttributeError end.
Definition info (f : family) (N : option xr) (d : dist) : res info_dict :=
  let bounds := map (fun b : bound => (format_support_value (fst b), option_map format_support_value (snd b)))
                    (params_support f (names d) N) in
  let base vals := mkInfo (names d) bounds (format_support_value (fst (supp d)), format_support_value (snd (supp d)))
                     (if frozen d then Some (params d) else None) (parametrizations f) vals in
  match parametrizations f with
  | Some ps =>
      if frozen d then
        do vals <- map_res (fun P => do vs <- map_res (getattr d) P; Ok (P, vs)) ps;
        Ok (base (Some vals))
      else Ok (base None)
  | None => Ok (base None)
  end.
