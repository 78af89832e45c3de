(** Vocabulary for the statistics of an integer valued variable, in terms of its distribution function. *)
From Coq Require Import List Bool Reals ZArith.
From Verif Require Import Base XR LawModel LawSpec ModSpec.
Import ListNotations.
Open Scope R_scope.

(** Mean, variance and standardised moments of a variable with values in {s, ..., t}. *)
Definition law_mean (G : xr -> R) (s t : Z) : R := expect G s t (fun x => x).
Definition law_var (G : xr -> R) (s t : Z) : R := expect G s t (fun x => (x - law_mean G s t) ^ 2).
Definition law_moment (G : xr -> R) (s t : Z) (k : nat) : R :=
  expect G s t (fun x => ((x - law_mean G s t) / sqrt (law_var G s t)) ^ k).

(** Shannon entropy, with 0 log 0 = 0. *)
Definition plogp (p : R) : R := if Reqb p 0 then 0 else p * ln p.
Definition law_entropy (G : xr -> R) (s t : Z) : R :=
  - fold_right Rplus 0 (map (fun z => plogp (G (Fin (IZR z)) - G (Fin (IZR z - 1)))) (arange s (t + 1))).

(** The object [d] has the support {s, ..., t} and the probabilities of the law [G]. *)
Definition tabulates (d : methods) (G : xr -> R) (s t : Z) : Prop :=
  kind_of d = Discrete /\ m_supp d = (Fin (IZR s), Fin (IZR t)) /\ (s <= t)%Z /\ values_in G s t /\
  (forall x y, xle x y -> G x <= G y) /\
  forall z, m_pdf d (Fin (IZR z)) = Fin (G (Fin (IZR z)) - G (Fin (IZR z - 1))).
