(** Model of preliz/internal/special.py (scalar functions). *)
From Coq Require Import List Bool Reals.
From Verif Require Import Base RLists XR.
Import ListNotations.
Open Scope R_scope.

(** special.py 73-82. nan falls through both comparisons and gives nan; infinities are outside [0,1]. *)
Definition xlogit (x : xr) : xr :=
  if xeqb x (Fin 0) then NInf
  else if xeqb x (Fin 1) then PInf
  else if (xltb x (Fin 0) || xltb (Fin 1) x)%bool then NaN
  else xlog (xdiv x (xsub (Fin 1) x)).

(** special.py 85-90. *)
Definition xexpit (x : xr) : xr :=
  if xleb (Fin 0) x then xdiv (Fin 1) (xadd (Fin 1) (xexp (xneg x)))
  else xdiv (xexp x) (xadd (Fin 1) (xexp x)).

(** special.py 93-98. *)
Definition xlogx (x : xr) : xr := if xeqb x (Fin 0) then Fin 0 else xmul x (xlog x).

(** special.py 101-108. *)
Definition xprody (x y : xr) : xr :=
  if xisinf x then Fin 0 else if xisinf y then Fin 0 else xmul x y.

(** special.py 111-122, on a non-empty list of reals. *)
Definition mean_and_std (data : list R) : R * R :=
  let n := INR (length data) in
  let mean := Rsum data / n in
  let sum_sq_diff := fold_left (fun acc x => acc + (x - mean) ^ 2) data 0 in
  (mean, sqrt (sum_sq_diff / n)).

(** special.py 16-23: the polynomial and alpha of garcia_approximation, z = sigma / mean. *)
Definition garcia_ks : list R := [-0.221016417; 0.010060668; 0.117358987; -0.050999126].
Definition garcia_poly (z : R) : R :=
  fold_left (fun acc ik => acc + snd ik * z ^ (fst ik)) (combine (seq 0 4) garcia_ks) 0.
Definition garcia_alpha (mean sigma : R) : R :=
  let z := sigma / mean in 1 / (z * (1 + (1 - z) ^ 2 * garcia_poly z)).
(** special.py 24-25; [gamma] is the Gamma function approximation of special.py 28-47. *)
Definition garcia_approximation (gamma : R -> R) (mean sigma : R) : R * R :=
  let alpha_p := garcia_alpha mean sigma in
  (alpha_p, 1 / (gamma (1 + 1 / alpha_p) / mean)).
