(** Conversions between parametrizations, computed in double precision. [a ** 2] and [a ** 0.5] are taken to be the square
    and the root rounded to the nearest double; np.float64 of a double is that double. *)
From Coq Require Import List Reals.
From Flocq Require Import Core.
From Verif Require Import FloatModel.
Open Scope R_scope.

Definition fsquare (a : R) : R := rnd (a * a).
Definition froot (a : R) : R := rnd (sqrt a).

(** distribution_helper.py 14-16 *)
Definition f_from_precision (precision : R) : R := fdiv 1 (froot precision).
(** distribution_helper.py 19-21 *)
Definition f_to_precision (sigma : R) : R := fdiv 1 (fadd f_eps (fsquare sigma)).
(** normal.py 82, 94, 98-99; halfnormal.py 74, 84; studentt.py 89, 103; halfstudentt.py 93, 104; logitnormal.py 76, 88;
    skewnormal.py 87, 100; skew_studentt.py 90, 98: what params holds after the precision was given *)
Definition f_reported_precision (tau : R) : R := f_to_precision (f_from_precision tau).

(** exponential.py 65-66, 74-81: what params holds after the scale was given *)
Definition f_reported_scale (scale : R) : R := let lam := fdiv 1 scale in fdiv 1 lam.

(** gamma.py 108-111 *)
Definition f_gamma_from (mu sigma : R) : R * R := (fdiv (fsquare mu) (fsquare sigma), fdiv mu (fsquare sigma)).
(** gamma.py 113-116 *)
Definition f_gamma_to (alpha beta : R) : R * R := (fdiv alpha beta, fdiv (froot alpha) beta).
(** gamma.py 88-89, 96-104: what params holds after mu and sigma were given *)
Definition f_gamma_reported (mu sigma : R) : R * R := let '(alpha, beta) := f_gamma_from mu sigma in f_gamma_to alpha beta.

(** wald.py 90-92, 98-100: phi in params after mu and phi were given *)
Definition f_wald_mu_phi (mu phi : R) : R := let lam := fmul mu phi in fdiv lam mu.
(** wald.py 94-96, 98-100: phi in params after lam and phi were given *)
Definition f_wald_lam_phi (lam phi : R) : R := let mu := fdiv lam phi in fdiv lam mu.

(** beta.py 116-119 *)
Definition f_beta_from (mu nu : R) : R * R := (fmul mu nu, fmul (fsub 1 mu) nu).
(** beta.py 121-125 *)
Definition f_beta_to (alpha beta : R) : R * R :=
  let alpha_plus_beta := fadd alpha beta in
  (fdiv alpha alpha_plus_beta, fdiv (fdiv (froot (fmul alpha beta)) alpha_plus_beta) (froot (fadd alpha_plus_beta 1))).
(** beta.py 97-103, 127-131: the attributes mu and sigma after mu and nu were given *)
Definition f_beta_reported (mu nu : R) : R * R := let '(alpha, beta) := f_beta_from mu nu in f_beta_to alpha beta.

(** negativebinomial.py 101-103, zi_negativebinomial.py 107-110 *)
Definition f_nb_from (n p : R) : R * R := (fmul n (fsub (fdiv 1 p) 1), n).
(** negativebinomial.py 105-107, zi_negativebinomial.py 112-115 *)
Definition f_nb_to (mu alpha : R) : R * R := (alpha, fdiv alpha (fadd mu alpha)).
(** negativebinomial.py 93-94, 109-117: n and p in params after p and n were given *)
Definition f_nb_reported (n p : R) : R * R := let '(mu, alpha) := f_nb_from n p in f_nb_to mu alpha.
