(** Model of the closed-form _fit_mle methods of preliz/distributions: the parameters handed to _update, as a function of
    the sample. A sample is a list of reals; an empty one raises ValueError in np.min and np.max and is excluded from the
    theorems elsewhere. ** 0.5 on a non-negative number is sqrt. The families whose _fit_mle is optimize_ml are not here. *)
From Coq Require Import List Bool Reals ZArith.
From Verif Require Import Base RLists XR SpecialModel.
Import ListNotations.
Open Scope R_scope.

(** np.mean, np.min, np.max. *)
Definition np_mean (l : list R) : R := Rsum l / INR (List.length l).
Definition np_min (l : list R) : res R := match l with [] => Err ValueError | h :: t => Ok (fold_left Rmin t h) end.
Definition np_max (l : list R) : res R := match l with [] => Err ValueError | h :: t => Ok (fold_left Rmax t h) end.

(** normal.py 106-107. *)
Definition normal_mle (sample : list R) : R * R := mean_and_std sample.
(** lognormal.py 130-132. *)
Definition lognormal_mle (sample : list R) : R * R := mean_and_std (map ln sample).
(** logitnormal.py 154-156, special.py 73-82 on (0, 1). *)
Definition logitnormal_mle (sample : list R) : R * R := mean_and_std (map (fun x => ln (x / (1 - x))) sample).
(** halfnormal.py 148-149. *)
Definition halfnormal_mle (sample : list R) : R := sqrt (np_mean (map (fun x => x ^ 2) sample)).
(** exponential.py 141-143. *)
Definition exponential_mle (sample : list R) : R := 1 / np_mean sample.
(** poisson.py 118-119. *)
Definition poisson_mle (sample : list R) : R := np_mean sample.
(** geometric.py 113-115. *)
Definition geometric_mle (sample : list R) : R := 1 / np_mean sample.
(** uniform.py 128-131; discrete_uniform.py 130-133 is the same. *)
Definition uniform_mle (sample : list R) : res (R * R) :=
  do lower <- np_min sample; do upper <- np_max sample; Ok (lower, upper).
Definition discrete_uniform_mle (sample : list R) : res (R * R) :=
  do lower <- np_min sample; do upper <- np_max sample; Ok (lower, upper).
(** np.median: the middle of the sorted sample, or the mean of the two in the middle. [sort] is numpy's sort. *)
Definition np_median (sort : list R -> list R) (l : list R) : R :=
  let s := sort l in
  let n := List.length l in
  if Nat.odd n then nth (Nat.div n 2) s 0
  else (nth (Nat.div n 2 - 1) s 0 + nth (Nat.div n 2) s 0) / 2.
(** laplace.py 121-123, 212-215. *)
Definition laplace_mle (sort : list R -> list R) (sample : list R) : R * R :=
  let median := np_median sort sample in
  (median, Rsum (map (fun x => Rabs (x - median)) sample) / INR (List.length sample)).
(** triangular.py 135-139. *)
Definition triangular_mle (sample : list R) : res (R * R * R) :=
  do lower <- np_min sample; do upper <- np_max sample;
  let middle := np_mean sample * 3 - lower - upper in
  Ok (lower, middle, upper).
(** binomial.py 77-78, 229-235. np.ceil. A zero denominator gives nan or inf. *)
Definition binomial_mle (sample : list R) : res (R * R) :=
  let '(x_bar, x_std) := mean_and_std sample in
  do x_max <- np_max sample;
  let den := sqrt x_bar * sqrt (x_max - x_bar) in
  if Reqb den 0 then Err NaNResult else
  let n := IZR (- Int_part (- (Rpower x_max 1.5 * x_std / den))) in
  if Reqb n 0 then Err NaNResult else
  Ok (n, x_bar / n).
(** exgaussian.py 133-139. [skew] is scipy.stats.skew. The square root of a negative variance is nan. *)
Definition exgaussian_mle (skew : list R -> R) (sample : list R) : res (R * R * R) :=
  let '(mean, std) := mean_and_std sample in
  let skewness := Rmax 0.0001 (skew sample) in
  let nu := std * Rpower (skewness / 2) (1 / 3) in
  let mu := mean - nu in
  let var := std ^ 2 * (1 - Rpower (skewness / 2) (2 / 3)) in
  if Rltb var 0 then Err NaNResult else Ok (mu, sqrt var, nu).
(** vonmises.py 123-128. np.mod with a positive divisor; [circmean] (of the data modulo 2 pi) and [find_kappa] are
    scipy's. *)
Definition np_mod (a b : R) : R := a - b * IZR (Int_part (a / b)).
Definition vonmises_mle (circmean : list R -> R) (find_kappa : list R -> R -> R) (sample : list R) : R * R :=
  let data := map (fun x => np_mod x (2 * PI)) sample in
  let mu := circmean data in
  let kappa := find_kappa data mu in
  (np_mod (mu + PI) (2 * PI) - PI, kappa).
