(** Model of the fits to a sample: [_fit_mle] of the univariate families with the optimisers it calls, and one pass of
    the loop of [fit_to_sample] (/repo/preliz/internal/optimization.py, /repo/preliz/distributions/*.py). The closed forms
    are those of MleModel and FitModel, [_update] is that of FamModel and the bounds are those of BoundModel. scipy's
    optimisers, special functions and the density are parameters. *)
From Coq Require Import List Bool String Reals ZArith.
From Verif Require Import Base RLists XR SpecialModel FamModel FamSpec OptModel BoundModel FitModel MleModel LawModel.
Import ListNotations.
Open Scope R_scope.
Open Scope string_scope.

(** What the instance hands to the functions of its law: its own parameters, in the order of [_update] (C56). *)
Definition values (f : family) (d : dist) : list (option xr) := map (attr d) (canonical f).

(** [-dist.logpdf(sample).sum()]. *)
Definition xsum (l : list xr) : xr := fold_left xadd l (Fin 0).
Definition neg_loglik (logpdf : list (option xr) -> R -> xr) (vals : list (option xr)) (sample : list R) : xr :=
  xneg (xsum (map (logpdf vals) sample)).

Section Sample.
Variable ptd_ig : xr -> xr -> xr * xr.                       (* as in FamModel *)
Variable euler_gamma : R.
Variable gamma : R -> xr.
Variable sort : list R -> list R.                            (* np.sort *)
Variable skew : list R -> R.                                 (* scipy.stats.skew *)
Variable circmean : list R -> R.                             (* scipy.stats.circmean *)
Variables i0e i1e : R -> R.                                  (* scipy.special *)
(** scipy's root_scalar with brentq on a bracket; a bracket whose ends have the same sign is a ValueError. *)
Variable root_scalar : (R -> R) -> R * R -> res R.
Variable rice : R -> R -> R * R.                             (* optimize_moments_rice, see RiceModel *)
(** [dist.mean()], [dist.std()] and [dist.logpdf(x)] as functions of the parameters. *)
Variables mean_of std_of : family -> list (option xr) -> xr.
Variable logpdf : family -> list (option xr) -> R -> xr.
(** scipy's least_squares and minimize: objective, start and bounds; the vectors tried and the one returned. *)
Variable least_squares : (list xr -> xr) -> list xr -> option (list bound) -> list (list xr) * list xr.
Variable minimize : (list xr -> xr) -> list (option xr) -> list bound -> list (list xr) * list xr.

(** optimization.py 529-542. [np.finfo(float).tiny] is 2^-1022. *)
Definition tiny : R := / 2 ^ 1022.
Definition find_kappa (data : list R) (mu : R) : res R :=
  let ere := np_mean (map (fun x => cos (mu - x)) data) in
  if Rltb 0 ere then root_scalar (fun kappa => i1e kappa / i0e kappa - ere) (tiny, 10 ^ 16) else Ok tiny.

(** The checks at the head of scipy's least_squares: the bounds must be a pair of sequences ([list(zip( *bounds))] of no
    bounds at all is not), the start must be within them, and the residual at the start must be finite. *)
Definition forallb2 {A B} (p : A -> B -> bool) : list A -> list B -> bool :=
  fix go l m := match l, m with x :: l, y :: m => p x y && go l m | [], [] => true | _, _ => false end.
Definition call_least_squares (fn : list xr -> xr) (x0 : list xr) (bounds : option (list bound))
    : res (list (list xr) * list xr) :=
  let start_ok := match bounds with
                  | None => true
                  | Some [] => false
                  | Some bs => forallb2 inside x0 bs
                  end in
  if negb start_ok then Err ValueError
  else if negb (xisfinite (fn x0)) then Err ValueError
  else Ok (least_squares fn x0 bounds).

(** optimization.py 160-196. [_parametrization] of a complete set of keywords is [construct]. Simplification: an exception
    inside the objective is a value that is not a number. *)
Definition mean_sigma_loss (f : family) (d : dist) (none_idx : list nat) (fixed : list xr) (mean sigma : R) (x : list xr) : xr :=
  match (do kw <- get_params (names d) (List.length (names d)) x none_idx fixed; construct ptd_ig f (dict_get kw)) with
  | Ok e => xadd (xabs (xsub (mean_of f (values f e)) (Fin mean))) (xabs (xsub (std_of f (values f e)) (Fin sigma)))
  | Err _ => NaN
  end.
Definition is_hypergeometric (f : family) : bool := match f with HyperGeometric => true | _ => false end.
Definition optimize_mean_sigma (f : family) (d : dist) (mean sigma : R) (guess : option (list xr)) : res dist :=
  do st <- mean_sigma_start f d guess;
  let '(none_idx, fixed, x0) := st in
  do out <- call_least_squares (mean_sigma_loss f d none_idx fixed mean sigma) (map (fun v => default v NaN) x0)
              (if is_hypergeometric f then None else Some (free_bounds f d none_idx));
  let '(tried, x) := out in
  install_all (fun kw => construct ptd_ig f (dict_get kw)) (names d) (List.length (names d)) none_idx fixed tried x.

(** The [_fit_moments] that search: betabinomial.py 129-130, binomial.py 70-75 (132-137), discrete_weibull.py 109-110,
    hypergeometric.py 123-124, kumaraswamy.py 117-118, loglogistic.py 121-122, negativebinomial.py 173-174,
    rice.py 155-157, skew_studentt.py 156-157, skewnormal.py 158-161, vonmises.py 119-121, zi_binomial.py 131-132,
    zi_negativebinomial.py 187-188, zi_poisson.py 69-70. *)
Definition search_moments (f : family) (d : dist) (mean sigma : R) : res dist :=
  match f with
  | Rice => let '(nu, s) := rice mean sigma in update f d [Some (Fin nu); Some (Fin s)]
  | Binomial => do g <- binomial_guess mean sigma; optimize_mean_sigma f d mean sigma (Some g)
  | VonMises => optimize_mean_sigma f d mean sigma (Some (vonmises_guess mean sigma))
  | SkewNormal =>
      let d := match attr d "alpha" with None => setA d "alpha" (Some (Fin 0)) | Some _ => d end in
      optimize_mean_sigma f d mean sigma None
  | _ => optimize_mean_sigma f d mean sigma None
  end.
Definition moments_fit (f : family) (d : dist) (mean sigma : R) : res dist :=
  fit_moments euler_gamma gamma search_moments f d mean sigma.

(** optimization.py 239-251, with the objective spelled out. [d] is the instance after _fit_moments; scipy only tries
    vectors of the length of the start. *)
Definition negll (f : family) (d : dist) (sample : list R) (v : list xr) : xr :=
  if negb (Nat.eqb (List.length v) (List.length (canonical f))) then NaN else
  match update f d (map Some v) with
  | Ok e => neg_loglik (logpdf f) (values f e) sample
  | Err _ => NaN
  end.
Definition likelihood_fit (f : family) (d : dist) (sample : list R) : res dist :=
  let '(mean, std) := mean_and_std sample in
  do d1 <- moments_fit f d mean std;
  optimize_ml f (fun d => Ok d) (minimize (negll f d1 sample)) (attr d1 "N") d1.

(** [dist._fit_mle(sample)].
    Closed forms: binomial.py 77-78 (139-140), discrete_uniform.py 130-133, exgaussian.py 133-139, exponential.py 141-143,
    geometric.py 113-115, halfnormal.py 148-149, laplace.py 121-123, logitnormal.py 154-156, lognormal.py 130-132,
    normal.py 106-107, poisson.py 118-119, triangular.py 135-139, uniform.py 128-131, vonmises.py 123-128.
    A fit of the moments first: beta.py 148-151, weibull.py 126-129. The ends first: betascaled.py 107-109,
    truncatednormal.py 146-148. The shape first: skewnormal.py 163-166 (numpy division and root).
    [optimize_ml] alone: asymmetric_laplace.py 162-163, bernoulli.py 94-95, betabinomial.py 132-133, cauchy.py 126-127,
    chi_squared.py 117-118, discrete_weibull.py 112-113, gamma.py 174-175, gumbel.py 127-128, halfcauchy.py 114-115,
    halfstudentt.py 186-187, hypergeometric.py 126-127, inversegamma.py 163-164, kumaraswamy.py 120-121,
    logistic.py 121-122, loglogistic.py 124-125, moyal.py 129-130, negativebinomial.py 176-177, pareto.py 122-123,
    rice.py 159-160, skew_studentt.py 159-160, studentt.py 177-178, wald.py 172-173, zi_binomial.py 134-135,
    zi_negativebinomial.py 190-191, zi_poisson.py 72-73. *)
Definition fit_mle (f : family) (d : dist) (sample : list R) : res dist :=
  let set1 (x : R) := update f d [Some (Fin x)] in
  let set2 (p : R * R) := update f d [Some (Fin (fst p)); Some (Fin (snd p))] in
  let set3 (p : R * R * R) := update f d [Some (Fin (fst (fst p))); Some (Fin (snd (fst p))); Some (Fin (snd p))] in
  match f with
  | Binomial => do p <- binomial_mle sample; set2 p
  | DiscreteUniform => do p <- discrete_uniform_mle sample; set2 p
  | ExGaussian => do p <- exgaussian_mle skew sample; set3 p
  | Exponential => set1 (exponential_mle sample)
  | Geometric => set1 (geometric_mle sample)
  | HalfNormal => set1 (halfnormal_mle sample)
  | Laplace => set2 (laplace_mle sort sample)
  | LogitNormal => set2 (logitnormal_mle sample)
  | LogNormal => set2 (lognormal_mle sample)
  | Normal => set2 (normal_mle sample)
  | Poisson => set1 (poisson_mle sample)
  | Triangular => do p <- triangular_mle sample; set3 p
  | Uniform => do p <- uniform_mle sample; set2 p
  | VonMises =>
      let data := map (fun x => np_mod x (2 * PI)) sample in
      do kappa <- find_kappa data (circmean data);
      set2 (vonmises_mle circmean (fun _ _ => kappa) sample)
  | Beta | Weibull =>
      let '(mean, std) := mean_and_std sample in
      do d1 <- moments_fit f d mean std; likelihood_fit f d1 sample
  | BetaScaled | TruncatedNormal =>
      do lo <- np_min sample; do up <- np_max sample;
      do d1 <- update f d [None; None; Some (Fin lo); Some (Fin up)]; likelihood_fit f d1 sample
  | SkewNormal =>
      let s := skew sample in
      likelihood_fit f (setA d "alpha" (Some (xdiv (Fin s) (xhalf (Fin (1 - s ^ 2)))))) sample
  | _ => likelihood_fit f d sample
  end.

(** optimization.py 481-485. *)
Definition update_bounds (d : dist) (x_min x_max : R) : dist :=
  setS (setA (setA d "lower" (Some (Fin x_min))) "upper" (Some (Fin x_max))) (Fin x_min, Fin x_max).
Definition bounded_by_sample (f : family) : bool := match f with BetaScaled | TruncatedNormal => true | _ => false end.

(** optimization.py 419-447 for a sample with one dimension: the instance and its loss. mle.py 73-75 computes the ends. *)
Definition fit_one (f : family) (d : dist) (sample : list R) : res (dist * xr) :=
  do x_min <- np_min sample; do x_max <- np_max sample;
  let d := if bounded_by_sample f then update_bounds d x_min x_max else d in
  if check_endpoints_silent (supp d) (Fin x_min) (Fin x_max) then
    do e <- fit_mle f d sample;
    do corr <- get_penalization (Z.of_nat (List.length sample)) (Z.of_nat (List.length (params e)));
    Ok (e, xadd (neg_loglik (logpdf f) (values f e) sample) (Fin corr))
  else Ok (d, PInf).
End Sample.

(* ------------------------------------------------------------ samples with several rows *)
Section Batch.
Variables (D Row V : Type).
Variable fit_row : D -> Row -> res D.                        (* copy(dist)._fit_mle(row): a new instance *)
Variable params_dict : D -> list (string * V).
Variable row_loss : D -> Row -> R.                           (* -dist_i.logpdf(row).sum() *)

(** optimization.py 427-432: one copy per row. *)
Fixpoint fit_rows (d : D) (rows : list Row) (acc : R) : res (list D * R) :=
  match rows with
  | [] => Ok ([], acc)
  | s :: r => do e <- fit_row d s; do out <- fit_rows d r (acc + row_loss e s);
              let '(ds, total) := out in Ok (e :: ds, total)
  end.
(** optimization.py 433-440. *)
Fixpoint collect (dict : list (string * list V)) (k : string) (v : V) : list (string * list V) :=
  match dict with
  | [] => [(k, [v])]
  | (k', l) :: r => if String.eqb k k' then (k', (l ++ [v])%list) :: r else (k', l) :: collect r k v
  end.
Definition collect_all (ds : list D) : list (string * list V) :=
  fold_left (fun acc d => fold_left (fun acc kv => collect acc (fst kv) (snd kv)) (params_dict d) acc) ds [].
(** optimization.py 426-442 and 446-447: the keywords handed to [_parametrization] and the loss. [n_params] is
    len(dist.params) and [size] is the number of values in the sample. *)
Definition fit_batch (n_params size : Z) (d : D) (rows : list Row) : res (list (string * list V) * R) :=
  do out <- fit_rows d rows 0;
  let '(ds, total) := out in
  do corr <- get_penalization size n_params;
  Ok (collect_all ds, total + corr).
End Batch.
