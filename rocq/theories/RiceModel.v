(** Model of optimize_moments_rice and of Rice._fit_moments (preliz/internal/optimization.py 199-236, rice.py 155-157).
    [i0] and [i1] are scipy.special.i0 and i1; the minimiser's answer is the parameter [theta]. Numbers are finite. *)
From Coq Require Import Reals.
From Verif Require Import Base XR.
Open Scope R_scope.

Section Rice.
Variables i0 i1 : R -> R.
(** optimization.py 213-221. *)
Definition xi (theta : R) : R :=
  2 + theta ^ 2 - PI / 8 * exp (- theta ^ 2 / 2) * ((2 + theta ^ 2) * i0 (theta ^ 2 / 4) + theta ^ 2 * i1 (theta ^ 2 / 4)) ^ 2.
(** optimization.py 223-224. *)
Definition fpf (ratio theta : R) : R := sqrt (xi theta * (1 + ratio ^ 2) - 2).
(** optimization.py 226-228: what is minimised. *)
Definition rice_loss (ratio theta : R) : R := Rabs (fpf ratio theta - theta).
(** optimization.py 206-236; [minimize] is given the loss and the starting point. *)
Definition rice_moments (minimize : (R -> R) -> R -> R) (mean std_dev : R) : R * R :=
  let ratio := mean / std_dev in
  if Rltb ratio (1913 / 1000) then (eps, 655 / 1000 * std_dev)
  else
    let theta := minimize (rice_loss ratio) (fpf ratio 1) in
    let xi_theta := xi theta in
    let sigma := std_dev / sqrt xi_theta in
    (sqrt (mean ^ 2 + (xi_theta - 2) * sigma ^ 2), sigma).
End Rice.
