(** Model of DistributionCatalog.info (preliz/distributions/catalog.py). *)
From Coq Require Import List Bool String Reals.
From Verif Require Import Base XR FamModel BoundModel CatModel.
Import ListNotations.
Open Scope R_scope.
Open Scope string_scope.

(** [param_names]: a tuple of names or, for Categorical (categorical.py 51), one text. *)
Inductive shown_names := Tuple (l : list string) | Text (s : string).
(** What catalog.py 335-345 puts in the dictionary. A support of None is shown as (None, None) (categorical.py 44). *)
Record entry := mkEntry {
  e_name : string;
  e_kind : string;
  e_names : shown_names;
  e_bounds : list (shown * option shown);
  e_support : option (shown * shown);
  e_parametrizations : option (list (list string)) }.

(** [self.kind], set by the parent class: distributions.py 1144-1149 (Continuous) and 1156-1161 (Discrete), as the class
    statement of each file says; distributions_multivariate.py 150. *)
Definition kind_shown (c : cls) : string :=
  match c with
  | Fam (Bernoulli | BetaBinomial | Binomial | DiscreteUniform | DiscreteWeibull | Geometric | HyperGeometric |
         NegativeBinomial | Poisson | ZeroInflatedBinomial | ZeroInflatedNegativeBinomial | ZeroInflatedPoisson) => "discrete"
  | CCategorical => "discrete"
  | CDirichlet | CMvNormal => "continuous_multivariate"
  | _ => "continuous"
  end.

Definition show_bound (b : bound) : shown * option shown := (format_support_value (fst b), option_map format_support_value (snd b)).

Section Info.
Variable ptd : xr -> xr -> xr * xr.
(** Whether the module preliz.distributions has an attribute with this name that is not one of the classes: its submodules
    and the lists of __init__.py. None of them can be called. *)
Variable other_attribute : string -> bool.
(** catalog.py 319-345: [_get_dist_class(name)], then [dist_cls()]. Modifiers need the distribution they modify
    (truncated.py 43, censored.py 46, hurdle.py 50, mixture.py 38), so calling them without arguments is a TypeError. The
    class attribute parametrizations: categorical.py 40; the multivariate ones have none. Parameters: categorical.py 51-52,
    continuous_multivariate.py 64, 68-69, 542, 549-550. *)
Definition catalog_info (name : string) : res entry :=
  match find (fun c => String.eqb (class_name c) name) all_classes with
  | None => if other_attribute name then Err TypeError else Err AttributeError
  | Some c =>
      match c with
      | Fam f =>
          do d <- construct ptd f (fun _ => None);
          Ok (mkEntry name (kind_shown c) (Tuple (names d)) (map show_bound (params_support f (names d) (attr d "N")))
                (Some (format_support_value (fst (supp d)), format_support_value (snd (supp d)))) (parametrizations f))
      | CCategorical =>
          Ok (mkEntry name (kind_shown c) (Text "p") [show_bound (Fin eps, Some PInf)] None (Some [["p"]; ["logit_p"]]))
      | CDirichlet =>
          Ok (mkEntry name (kind_shown c) (Tuple ["alpha"]) [show_bound (Fin eps, Some PInf)]
                (Some (format_support_value (Fin eps), format_support_value (Fin (1 - eps)))) None)
      | CMvNormal =>
          Ok (mkEntry name (kind_shown c) (Tuple ["mu"; "cov"]) [show_bound (NInf, Some PInf); show_bound (Fin eps, Some PInf)]
                (Some (format_support_value NInf, format_support_value PInf)) None)
      | CMixture | CTruncated | CCensored | CHurdle => Err TypeError
      end
  end.
End Info.
