(** Vocabulary for mixtures: a list of parts, each a component with its distribution function and its weight. *)
From Coq Require Import List Bool ZArith Reals.
From Verif Require Import Base RLists XR LawModel LawSpec ModSpec MixModel.
Import ListNotations.
Open Scope R_scope.

Record part := { p_comp : component; p_F : xr -> R; p_weight : R }.

(** The share of a part. *)
Definition share (ps : list part) (p : part) : R := p_weight p / Rsum (map p_weight ps).
(** The average of a quantity over the parts, each counted with its share. *)
Definition average (ps : list part) (f : part -> R) : R := Rsum (map (fun p => share ps p * f p) ps).
(** P(X <= x) when a part is chosen according to the shares and then X is drawn from it. *)
Definition mixture_law (ps : list part) (x : xr) : R := average ps (fun p => p_F p x).

(** The components are distributions of one kind, their parameters are given, the weights are non negative and not all
    zero. *)
Definition mixable (k : kind) (ps : list part) : Prop :=
  (forall p, In p ps -> lawful (comp (p_comp p)) (p_F p) /\ kind_of (comp (p_comp p)) = k /\
     comp_frozen (p_comp p) = true /\ 0 <= p_weight p /\
     number (fst (m_supp (comp (p_comp p)))) /\ number (snd (m_supp (comp (p_comp p))))) /\
  0 < Rsum (map p_weight ps).

(** The mixture object built from the parts. *)
Definition mixture_of (ps : list part) (m : mixture) : Prop :=
  make_mixture (map p_comp ps) (Some (map p_weight ps)) = Ok m.

(** A distribution function of a finite variable (what can be said of a cdf alone). *)
Definition distribution_function (F : xr -> R) : Prop :=
  (forall x y, xle x y -> F x <= F y) /\ F NInf = 0 /\ F PInf = 1 /\
  (forall q, 0 < q -> exists r, F (Fin r) < q) /\ (forall q, q < 1 -> exists r, q <= F (Fin r)).
