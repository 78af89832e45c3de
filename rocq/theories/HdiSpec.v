(** Vocabulary for highest density intervals. *)
From Coq Require Import List Bool Reals Permutation.
From Verif Require Import Base XR LawModel LawSpec.
Open Scope R_scope.

(** The support is where the probability is. *)
Definition supported (d : methods) (F : xr -> R) : Prop :=
  number (fst (m_supp d)) /\ number (snd (m_supp d)) /\ F (snd (m_supp d)) = 1 /\ forall x, xlt x (fst (m_supp d)) -> F x = 0.

(** [p] is a point that the optimisation problem allows: the equality constraint holds and both coordinates are in bounds. *)
Definition allowed (constraint : xr * xr -> xr) (bounds p : xr * xr) : Prop :=
  constraint p = Fin 0 /\ xle (fst bounds) (fst p) /\ xle (fst p) (snd bounds) /\ xle (fst bounds) (snd p) /\ xle (snd p) (snd bounds).
(** A constrained minimiser that does not make an allowed start worse. *)
Definition improves (minimize : (xr * xr -> xr) -> (xr * xr -> xr) -> xr * xr -> xr * xr -> xr * xr) : Prop :=
  forall f c x0 b, number (f x0) -> allowed c b x0 -> allowed c b (minimize f c x0 b) /\ xle (f (minimize f c x0 b)) (f x0).

(** Points inside the support, and a density that is strictly unimodal there. *)
Definition interior (d : methods) (x : R) : Prop := xlt (fst (m_supp d)) (Fin x) /\ xlt (Fin x) (snd (m_supp d)).
Definition one_mode (d : methods) (f : R -> R) : Prop :=
  forall x y z, interior d x -> interior d z -> x < y < z -> Rmin (f x) (f z) < f y.
(** [F] has the density [f]. *)
Definition density (d : methods) (F : xr -> R) (f : R -> R) : Prop :=
  continuity (fun r => F (Fin r)) /\ forall x, interior d x -> derivable_pt_lim (fun r => F (Fin r)) x (f x).
