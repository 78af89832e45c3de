(** Model of the functions minimised in preliz/internal/optimization.py by the quantile, moment and quartile fits.

    A distribution under test is reduced to the real-valued methods that the residuals call. Arrays are lists; two
    arrays combined elementwise have the same length (numpy raises otherwise, except that it repeats an array of
    length one, which is not modelled). *)
From Coq Require Import List Bool String Reals.
From Verif Require Import Base RLists XR LawModel.
Import ListNotations.
Open Scope R_scope.

Record rdist := mkRd { r_cdf : R -> R; r_ppf : R -> R; r_pdf : R -> R; r_moments : moment_methods R }.
Definition r_mean (d : rdist) : R := f_mean (r_moments d).
Definition r_std (d : rdist) : R := f_std (r_moments d).

(** a - b on arrays. *)
Definition array_sub (a b : list R) : res (list R) :=
  if Nat.eqb (List.length a) (List.length b) then Ok (map (fun xy => fst xy - snd xy) (combine a b)) else Err ValueError.
(** np.sum((a - b) ** 2). *)
Definition sum_squares (l : list R) : R := Rsum (map (fun x => x ^ 2) l).

(** optimization.py 93-98. *)
Definition quartile_residuals (d : rdist) (x_vals : list R) : res (list R) :=
  array_sub (map (r_cdf d) x_vals) [0.25; 0.5; 0.75].
(** optimization.py 110-115. *)
Definition pdf_residuals (d : rdist) (x_vals epdf : list R) : res (list R) :=
  array_sub (map (r_pdf d) x_vals) epdf.
(** scipy's least_squares minimises half the sum of the squared residuals (loss="linear"). *)
Definition ls_cost (l : list R) : R := sum_squares l / 2.
(** optimization.py 128-133. *)
Definition moments_loss (d : rdist) (types : string) (target : list R) : res R :=
  do vals <- moments (r_moments d) types; do diff <- array_sub vals target; Ok (sum_squares diff).
(** optimization.py 144-149. *)
Definition quantiles_loss (d : rdist) (quantiles target : list R) : res R :=
  do diff <- array_sub (map (r_ppf d) quantiles) target; Ok (sum_squares diff).
(** optimization.py 160-165. *)
Definition mean_sigma_loss (d : rdist) (mean sigma : R) : R :=
  Rabs (r_mean d - mean) + Rabs (r_std d - sigma).
