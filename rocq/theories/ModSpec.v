(** Vocabulary for truncated, censored, hurdle and mixture distributions, in terms of the distribution function F of the
    base variable X only. *)
From Coq Require Import List Bool ZArith Reals.
From Verif Require Import Base XR LawModel LawSpec.
Import ListNotations.
Open Scope R_scope.

Definition xmin (a b : xr) : xr := if xleb a b then a else b.
Definition xmax (a b : xr) : xr := if xleb a b then b else a.

(** P(X <= x | l <= X <= u). *)
Definition conditional (k : kind) (F : xr -> R) (l u x : xr) : R :=
  Rmax 0 (F (xmin x u) - below k F l) / between k F l u.

(** P(clip(X, l, u) <= x). *)
Definition clipped (F : xr -> R) (l u x : xr) : R :=
  if xltb x l then 0 else if xleb u x then 1 else F x.

(** A number inside the closed interval. *)
Definition within (l u x : xr) : Prop := xle l x /\ xle x u.

(** E g(X) for a variable with values in {s, ..., t} and distribution function F. *)
Definition expect (F : xr -> R) (s t : Z) (g : R -> R) : R :=
  fold_right Rplus 0 (map (fun z => g (IZR z) * (F (Fin (IZR z)) - F (Fin (IZR z - 1)))) (arange s (t + 1))).
(** X takes values in {s, ..., t}. *)
Definition values_in (F : xr -> R) (s t : Z) : Prop := F (Fin (IZR s - 1)) = 0 /\ F (Fin (IZR t)) = 1.
Definition clipR (a b x : R) : R := Rmax a (Rmin x b).

(** Hurdle variables. Y = 0 with probability 1 - psi, otherwise Y is distributed as X given X > t. *)
Definition hurdle_law (t psi : R) (F : xr -> R) (x : xr) : R :=
  if xltb x (Fin 0) then 0
  else (1 - psi) + psi * (Rmax 0 (F x - F (Fin t)) / (1 - F (Fin t))).
(** X is never negative. *)
Definition nonnegative (F : xr -> R) : Prop := forall r, r < 0 -> F (Fin r) = 0.
