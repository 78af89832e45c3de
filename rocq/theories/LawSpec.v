(** What it means for the methods of an object to describe a probability distribution. Independent of how the
    code computes them. *)
From Coq Require Import List Bool Ascii ZArith Reals Permutation Sorted.
From Verif Require Import Base XR LawModel.
Import ListNotations.
Open Scope R_scope.

Definition number (x : xr) : Prop := x <> NaN.
Definition xle (x y : xr) : Prop := xleb x y = true.
Definition xlt (x y : xr) : Prop := xltb x y = true.
Definition whole (x : xr) : Prop := exists z, x = Fin (IZR z).

(** [lawful d F]: the object [d] describes a random variable X with P(X <= x) = F x.
    [l_cdf]: cdf reports F. [l_mono], [l_lo], [l_hi], [l_tight_*]: F is a distribution function of a variable that is
    finite with probability one. [l_ppf]: ppf is the generalised inverse of F on (0, 1]. [l_log]: logpdf is the
    logarithm of pdf. [l_disc]: a discrete variable is integer valued and pdf is its probability mass function.
    [l_cont]: a continuous variable has no atoms. *)
Record lawful (d : methods) (F : xr -> R) : Prop := {
  l_cdf : forall x, number x -> m_cdf d x = Fin (F x);
  l_mono : forall x y, xle x y -> F x <= F y;
  l_lo : F NInf = 0;
  l_hi : F PInf = 1;
  l_tight_lo : forall q, 0 < q -> exists r, F (Fin r) < q;
  l_tight_hi : forall q, q < 1 -> exists r, q <= F (Fin r);
  l_ppf : forall q, 0 < q <= 1 -> number (m_ppf d (Fin q)) /\
            forall x, number x -> (xle (m_ppf d (Fin q)) x <-> q <= F x);
  l_log : forall x, number x -> m_logpdf d x = xlog (m_pdf d x);
  l_disc : kind_of d = Discrete ->
            (forall r, F (Fin r) = F (Fin (Rfloor r))) /\
            (forall z, m_pdf d (Fin (IZR z)) = Fin (F (Fin (IZR z)) - F (Fin (IZR z - 1))));
  l_cont : kind_of d = Continuous -> forall q, 0 < q < 1 -> F (m_ppf d (Fin q)) = q }.

(** P(X < x): for an integer valued variable and an integer x the probability of X <= x - 1. *)
Definition below (k : kind) (F : xr -> R) (x : xr) : R :=
  match k with Continuous => F x | Discrete => F (xsub x (Fin 1)) end.
(** P(lo <= X <= hi). *)
Definition between (k : kind) (F : xr -> R) (lo hi : xr) : R := F hi - below k F lo.

(** A bound that makes sense for the kind of distribution: any number, but an integer or infinite one when the
    distribution is discrete. *)
Definition proper_bound (k : kind) (x : xr) : Prop :=
  match k with Continuous => number x | Discrete => whole x \/ x = PInf \/ x = NInf end.

(** The letters understood by [moments] and [lmoments] and what each stands for. *)
Open Scope char_scope.
Definition moment_names {A} (fs : moment_methods A) : list (Ascii.ascii * A) :=
  [("m", f_mean fs); ("d", f_std fs); ("v", f_var fs); ("s", f_skew fs); ("k", f_kurt fs)].
Definition lmoment_names {A} (l1 l2 l3 l4 : A) : list (Ascii.ascii * A) :=
  [("1", l1); ("2", l2); ("3", l3); ("4", l4)].
Close Scope char_scope.

(** The total probability of a table of values and probabilities, and of the part of it inside [a, b]. *)
Definition total (t : list (Z * R)) : R := fold_right Rplus 0 (map snd t).
Definition inside (a b : Z) (t : list (Z * R)) : list (Z * R) :=
  filter (fun vp => (a <=? fst vp)%Z && (fst vp <=? b)%Z)%bool t.
(** [s] is a selection of rows of the table [t] (each row at most as often as it occurs in [t]). *)
Definition selection (s t : list (Z * R)) : Prop := exists rest, Permutation (s ++ rest) t.
(** The rows are listed from the most to the least probable; ties in any order. *)
Definition by_density (t : list (Z * R)) : Prop := StronglySorted (fun a b => snd b <= snd a) t.
(** Between two rows of the table there is no row that is not more probable than one of them. *)
Definition unimodal (t : list (Z * R)) : Prop :=
  forall a b c, In a t -> In b t -> In c t -> (fst a < fst b < fst c)%Z -> Rmin (snd a) (snd c) < snd b.
(** The table has one row for each integer between its extremes. *)
Definition contiguous (t : list (Z * R)) : Prop :=
  NoDup (map fst t) /\ forall a c z, In a t -> In c t -> (fst a <= z <= fst c)%Z -> exists p, In (z, p) t.
