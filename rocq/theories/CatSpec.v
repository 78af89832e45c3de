(** Vocabulary for C54 and C55: what the catalogue filters and categories mean. *)
From Coq Require Import List Bool String Reals.
From Verif Require Import Base XR FamModel FamSpec CatModel.
Import ListNotations.
Open Scope R_scope.
Open Scope string_scope.

(** The kind filter: an unknown kind is no filter. *)
Definition of_kind (kind : option string) (c : cls) : Prop :=
  (kind = Some "continuous" /\ In c all_continuous) \/ (kind = Some "discrete" /\ In c all_discrete) \/
  (kind <> Some "continuous" /\ kind <> Some "discrete" /\ (In c all_continuous \/ In c all_discrete)).

(** Number of parameters: the size of the canonical parameter set. *)
Definition has_params (c : cls) (n : nat) : Prop :=
  match c with Fam f => List.length (canonical f) = n | _ => n = 1%nat end.

(** Support of an instance without parameters. *)
Definition bare_support (f : family) : xr * xr :=
  match f with
  | Uniform | DiscreteUniform | Triangular | TruncatedNormal => (NInf, PInf)
  | BetaScaled => (Fin 0, Fin 1)
  | Pareto | Binomial | BetaBinomial | ZeroInflatedBinomial | HyperGeometric => (Fin 0, PInf)
  | _ => natural_support f
  end.
(** Meaning of the four support filters; an unknown filter accepts everything that has a support. *)
Definition support_kind (t : string) (s : xr * xr) : Prop :=
  (t = "positive" /\ (fst s = PInf \/ exists x, fst s = Fin x /\ 0 <= x) /\ snd s = PInf) \/
  (t = "bounded" /\ fst s <> NInf /\ snd s <> PInf) \/
  (t = "unbounded" /\ fst s = NInf /\ snd s = PInf) \/
  (t = "non_negative" /\ (fst s = PInf \/ exists x, fst s = Fin x /\ 0 <= x)) \/
  (~ In t ["positive"; "bounded"; "unbounded"; "non_negative"]).
Definition has_support (c : cls) (t : string) : Prop :=
  match c with Fam f => support_kind t (bare_support f) | _ => False end.

(** The categories listed in the documentation of [catalog.get]. *)
Definition documented_categories : list string :=
  ["continuous"; "discrete"; "continuous_multivariate"; "positive"; "unbounded"; "bounded"; "non_negative";
   "non_negative_continuous"; "non_negative_discrete"; "bounded_discrete"; "multivariate"; "symmetric"; "asymmetric";
   "heavy_tailed"; "light_tailed"; "zero_inflated"; "extreme_value"; "circular"; "binary"; "count"].

(** What the documentation says about the support of the members of a category. *)
Definition documented_support (category : string) (s : xr * xr) : Prop :=
  match category with
  | "unbounded" => s = (NInf, PInf)
  | "positive" => exists x, 0 <= x /\ s = (Fin x, PInf)
  | "bounded" | "bounded_discrete" => exists x y, s = (Fin x, Fin y)
  | "non_negative_continuous" => exists x, 0 <= x /\ s = (Fin x, PInf)
  | "non_negative_discrete" | "count" => fst s = Fin 0
  | _ => True
  end.

(** All current parameters are finite (and the scale of a Pareto is positive, the trials of a count not negative). *)
Definition finite_params (f : family) (d : dist) : Prop :=
  Forall (fun p => exists x, p = Some (Fin x)) (params d) /\
  (f = Pareto -> exists x, attr d "m" = Some (Fin x) /\ 0 < x).
