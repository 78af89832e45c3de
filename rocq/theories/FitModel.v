(** Model of [_fit_moments(mean, sigma)] of the univariate families and of the modifiers
    (preliz/distributions/*.py; line numbers refer to the file named in the comment).

    [mean] and [sigma] are finite Python floats. The families that call a numerical optimiser are the parameter
    [opt] (the optimisers are modelled in OptModel). Literals such as 0.1 are exact decimals. *)
From Coq Require Import List Bool String Reals.
From Verif Require Import Base XR SpecialModel FamModel.
Import ListNotations.
Open Scope R_scope.
Open Scope string_scope.

Section Fit.
(** np.euler_gamma *)
Variable euler_gamma : R.
(** special.py 28-47: gamma; large arguments overflow to inf. *)
Variable gamma : R -> xr.
(** optimize_mean_sigma and optimize_moments_rice followed by _update. *)
Variable opt : family -> dist -> R -> R -> res dist.

Definition xgamma (a : xr) : xr := match a with Fin r => gamma r | _ => NaN end.

(** asymmetric_laplace.py 156-160. *)
Definition al_fit (d : dist) (mean sigma : R) : res dist :=
  do r <- pyhalf (Fin 2);
  Ok (al_update d (Fin 1) (Fin mean) (xmul (Fin (sigma / 2)) r)).
(** beta.py 142-146. *)
Definition beta_fit (d : dist) (mean sigma : R) : res dist :=
  do (a, b) <- beta_from_mu_sigma (Fin mean) (Fin sigma);
  Ok (beta_update d (pymax (Fin (1 / 2)) a) (pymax (Fin (1 / 2)) b)).
(** betascaled.py 99-105; arithmetic on a missing bound raises TypeError. *)
Definition betascaled_fit (d : dist) (mean sigma : R) : res dist :=
  match attr d "lower", attr d "upper" with
  | Some lo, Some up =>
      do m <- pydiv (xsub (Fin mean) lo) (xsub up lo);
      do s <- pydiv (Fin sigma) (xsub up lo);
      do q <- pydiv (xmul m (xsub (Fin 1) m)) (xpow s 2);
      let kappa := xsub q (Fin 1) in
      let alpha := pymax (Fin (1 / 2)) (xmul kappa m) in
      let beta := pymax (Fin (1 / 2)) (xmul kappa (xsub (Fin 1) m)) in
      Ok (betascaled_update d (Some alpha) (Some beta) None None)
  | _, _ => Err TypeError
  end.
(** discrete_uniform.py 124-128. *)
Definition discreteuniform_fit (d : dist) (mean sigma : R) : res dist :=
  do spr <- pyhalf (xadd (xmul (Fin 12) (xpow (Fin sigma) 2)) (Fin 1));
  let lower := xmul (Fin (1 / 2)) (xadd (xsub (Fin (2 * mean)) spr) (Fin 1)) in
  let upper := xmul (Fin (1 / 2)) (xsub (xadd (Fin (2 * mean)) spr) (Fin 1)) in
  Ok (discreteuniform_update d lower upper).
(** exponential.py 137-139. *)
Definition exponential_fit (d : dist) (mean sigma : R) : res dist :=
  do lam <- pydiv (Fin 1) (Fin mean); Ok (exponential_update d lam).
(** gamma.py 170-172. *)
Definition gamma_fit (d : dist) (mean sigma : R) : res dist :=
  do (a, b) <- gamma_from_mu_sigma (Fin mean) (Fin sigma); Ok (gamma_update d a b).
(** geometric.py 109-111. *)
Definition geometric_fit (d : dist) (mean sigma : R) : res dist :=
  do p <- pydiv (Fin 1) (Fin mean); Ok (plain_update d ["p"] [p]).
(** gumbel.py 122-125. *)
Definition gumbel_fit (d : dist) (mean sigma : R) : res dist :=
  do r <- pyhalf (Fin 6);
  let beta := xmul (Fin (sigma / PI)) r in
  Ok (plain_update d ["mu"; "beta"] [xsub (Fin mean) (xmul beta (Fin euler_gamma)); beta]).
(** halfnormal.py 145-146. *)
Definition halfnormal_fit (d : dist) (mean sigma : R) : res dist :=
  do r <- pyhalf (Fin (1 - 2 / PI)); do s <- pydiv (Fin sigma) r; Ok (halfnormal_update d s).
(** halfstudentt.py 165-184. *)
Definition fit_nu (nu : option xr) : xr :=
  match nu with None => Fin 100 | Some nu => if xleb nu (Fin 2) then Fin (21 / 10) else nu end.
Definition halfstudentt_fit (d : dist) (mean sigma : R) : res dist :=
  let nu := fit_nu (attr d "nu") in
  let gamma0 := xgamma (xdiv (xadd nu (Fin 1)) (Fin 2)) in
  let gamma1 := xgamma (xdiv nu (Fin 2)) in
  do s <- (if xisfinite gamma0 && xisfinite gamma1 then
     do a <- pydiv nu (xsub nu (Fin 2));
     do b <- pydiv (xmul (Fin 4) nu) (xmul (Fin PI) (xpow (xsub nu (Fin 1)) 2));
     do c <- pydiv gamma0 gamma1;
     do q <- pydiv (xpow (Fin sigma) 2) (xsub a (xmul b (xpow c 2)));
     pyhalf q
   else do r <- pyhalf (Fin (1 - 2 / PI)); pydiv (Fin sigma) r);
  Ok (halfstudentt_update d nu s).
(** inversegamma.py 159-161 and 252-255. *)
Definition inversegamma_fit (d : dist) (mean sigma : R) : res dist :=
  do q2 <- pydiv (xpow (Fin mean) 2) (xpow (Fin sigma) 2);
  do q3 <- pydiv (xpow (Fin mean) 3) (xpow (Fin sigma) 2);
  Ok (inversegamma_update d (xadd q2 (Fin 2)) (xadd q3 (Fin mean))).
(** laplace.py 117-119. *)
Definition laplace_fit (d : dist) (mean sigma : R) : res dist :=
  do r <- pyhalf (Fin 2); Ok (plain_update d ["mu"; "b"] [Fin mean; xmul (Fin (sigma / 2)) r]).
(** logistic.py 117-119. *)
Definition logistic_fit (d : dist) (mean sigma : R) : res dist :=
  do q <- pydiv (xmul (Fin 3) (xpow (Fin sigma) 2)) (xpow (Fin PI) 2);
  do s <- pyhalf q; Ok (plain_update d ["mu"; "s"] [Fin mean; s]).
(** logitnormal.py 149-152; np.diff of the pair is the second minus the first. *)
Definition logitnormal_fit (d : dist) (mean sigma : R) : res dist :=
  Ok (logitnormal_update d (xlogit (Fin mean)) (Fin ((mean + sigma * 3) - (mean - sigma * 3)))).
(** lognormal.py 125-128. *)
Definition lognormal_fit (d : dist) (mean sigma : R) : res dist :=
  do r <- pyhalf (xadd (xpow (Fin sigma) 2) (xpow (Fin mean) 2));
  do q <- pydiv (xpow (Fin mean) 2) r;
  let mu := xlog q in
  do t <- pydiv (xpow (Fin sigma) 2) (xpow (Fin mean) 2);
  let s := xhalf (xlog (xadd t (Fin 1))) in
  Ok (plain_update d ["mu"; "sigma"] [mu; s]).
(** moyal.py 124-127. *)
Definition moyal_fit (d : dist) (mean sigma : R) : res dist :=
  do r <- pyhalf (Fin 2);
  let s := xmul (Fin (sigma / PI)) r in
  let mu := xsub (Fin mean) (xmul s (xadd (Fin euler_gamma) (xlog (Fin 2)))) in
  Ok (plain_update d ["mu"; "sigma"] [mu; s]).
(** pareto.py 117-120. *)
Definition pareto_fit (d : dist) (mean sigma : R) : res dist :=
  do q <- pydiv (Fin mean) (Fin sigma);
  do r <- pyhalf (xadd (Fin 1) (xpow q 2));
  let alpha := xadd (Fin 1) r in
  do m <- pydiv (xmul (xsub alpha (Fin 1)) (Fin mean)) alpha;
  Ok (pareto_update d alpha m).
(** studentt.py 164-175. *)
Definition studentt_fit (d : dist) (mean sigma : R) : res dist :=
  let nu := fit_nu (attr d "nu") in
  do s <- (match attr d "nu" with
     | None => Ok (Fin sigma)
     | Some n => if xleb n (Fin 2) then Ok (Fin sigma)
                 else do q <- pydiv n (xsub n (Fin 2)); do r <- pyhalf q; pydiv (Fin sigma) r
     end);
  Ok (studentt_update d nu (Fin mean) s).
(** triangular.py 128-133. *)
Definition triangular_fit (d : dist) (mean sigma : R) : res dist :=
  do r <- pyhalf (Fin 6);
  let w := xmul r (Fin sigma) in
  Ok (triangular_update d (xsub (Fin mean) w) (Fin mean) (xadd (Fin mean) w)).
(** uniform.py 123-126. *)
Definition uniform_fit (d : dist) (mean sigma : R) : res dist :=
  Ok (uniform_update d (Fin (mean - 1.73205 * sigma)) (Fin (mean + 1.73205 * sigma))).
(** wald.py 168-170. *)
Definition wald_fit (d : dist) (mean sigma : R) : res dist :=
  do lam <- pydiv (xpow (Fin mean) 3) (xpow (Fin sigma) 2); Ok (wald_update d (Fin mean) lam).
(** weibull.py 122-124 with special.py 6-25. Simplification: gamma of a finite number is finite here. *)
Definition weibull_fit (d : dist) (mean sigma : R) : res dist :=
  let '(a, b) := garcia_approximation (fun x => match gamma x with Fin r => r | _ => 0 end) mean sigma in
  Ok (plain_update d ["alpha"; "beta"] [Fin a; Fin b]).

(** [dist._fit_moments(mean, sigma)]. One-line bodies: bernoulli.py 91-92, cauchy.py 123-124, chi_squared.py 114-115,
    exgaussian.py 129-131, halfcauchy.py 111-112, normal.py 103-104, poisson.py 115-116, truncatednormal.py 142-144. *)
Definition fit_moments (f : family) (d : dist) (mean sigma : R) : res dist :=
  match f with
  | AsymmetricLaplace => al_fit d mean sigma
  | Bernoulli => Ok (bernoulli_update d (Fin mean))
  | Beta => beta_fit d mean sigma
  | BetaScaled => betascaled_fit d mean sigma
  | Cauchy => Ok (plain_update d ["alpha"; "beta"] [Fin mean; Fin sigma])
  | ChiSquared => Ok (plain_update d ["nu"] [Fin mean])
  | DiscreteUniform => discreteuniform_fit d mean sigma
  | ExGaussian => Ok (plain_update d ["mu"; "sigma"; "nu"] [Fin mean; Fin sigma; Fin (1 / 10000)])
  | Exponential => exponential_fit d mean sigma
  | Gamma => gamma_fit d mean sigma
  | Geometric => geometric_fit d mean sigma
  | Gumbel => gumbel_fit d mean sigma
  | HalfCauchy => Ok (plain_update d ["beta"] [Fin sigma])
  | HalfNormal => halfnormal_fit d mean sigma
  | HalfStudentT => halfstudentt_fit d mean sigma
  | InverseGamma => inversegamma_fit d mean sigma
  | Laplace => laplace_fit d mean sigma
  | Logistic => logistic_fit d mean sigma
  | LogitNormal => logitnormal_fit d mean sigma
  | LogNormal => lognormal_fit d mean sigma
  | Moyal => moyal_fit d mean sigma
  | Normal => Ok (normal_update d (Fin mean) (Fin sigma))
  | Pareto => pareto_fit d mean sigma
  | Poisson => Ok (plain_update d ["mu"] [Fin mean])
  | StudentT => studentt_fit d mean sigma
  | Triangular => triangular_fit d mean sigma
  | TruncatedNormal => Ok (truncatednormal_update d (Some (Fin mean)) (Some (Fin sigma)) None None)
  | Uniform => uniform_fit d mean sigma
  | Wald => wald_fit d mean sigma
  | Weibull => weibull_fit d mean sigma
  | BetaBinomial | Binomial | DiscreteWeibull | HyperGeometric | Kumaraswamy | LogLogistic | NegativeBinomial | Rice
  | SkewNormal | SkewStudentT | VonMises | ZeroInflatedBinomial | ZeroInflatedNegativeBinomial
  | ZeroInflatedPoisson => opt f d mean sigma
  end.
End Fit.

(* -------------------------------------------------------------- the modifiers as objects *)
(** Truncated, Censored and Hurdle instances: the wrapped instance and their own attributes. [w_extra] holds lower
    and upper (or psi for Hurdle). *)
Inductive modifier := Trunc | Cens | Hurd.
Record wrapped := mkWrapped {
  w_base : dist;
  w_extra : list (string * option xr);
  w_names : list string;
  w_params : list (option xr);
  w_supp : xr * xr;
  w_frozen : bool }.

Fixpoint lookup (l : list (string * option xr)) (k : string) : option (option xr) :=
  match l with [] => None | (k', v) :: r => if String.eqb k k' then Some v else lookup r k end.
Definition flat (o : option (option xr)) : option xr := match o with Some v => v | None => None end.

Definition w_max (a b : xr) : xr := if xisnan a || xisnan b then NaN else if xltb a b then b else a.
Definition w_min (a b : xr) : xr := if xisnan a || xisnan b then NaN else if xltb b a then b else a.

(** [self._parametrization( **kwargs )] of a modifier on an existing instance (truncated.py 48-80, censored.py 51-84,
    hurdle.py 55-75). Keyword arguments called lower, upper (or psi) bind to the parameters of the method and are not
    in its **kwargs. [reparam] is the base object's [_parametrization]. [was] is the earlier frozen flag, which is never
    cleared. *)
Definition own_names (m : modifier) : list string := match m with Hurd => ["psi"] | _ => ["lower"; "upper"] end.
Definition wrap_param (m : modifier) (reparam : dist -> args -> res dist) (was : bool) (d : dist)
    (kw : list (string * option xr)) : res wrapped :=
  let rest := filter (fun kv => negb (existsb (String.eqb (fst kv)) (own_names m))) kw in
  let rest := match rest with
              | [] => match params d with
                      | [] => map (fun n => (n, None)) (names d)
                      | ps => combine (names d) ps
                      end
              | _ => rest end in
  let dist_params := map snd rest in
  let lower := match flat (lookup kw "lower") with Some l => l | None => NInf end in
  let upper := match flat (lookup kw "upper") with Some u => u | None => PInf end in
  let own := match m with
             | Hurd => [("psi", flat (lookup kw "psi"))]
             | _ => [("lower", Some lower); ("upper", Some upper)] end in
  do (d', fr) <- (if all_not_none dist_params
                  then do d' <- reparam d (fun k => flat (lookup rest k)); Ok (d', true)
                  else Ok (d, was));
  let s := match m with
           | Hurd => supp d'
           | _ => (w_max (fst (supp d')) lower, w_min (snd (supp d')) upper) end in
  let own' := match m with Cens => [("lower", Some (fst s)); ("upper", Some (snd s))] | _ => own end in
  Ok {| w_base := d'; w_extra := own'; w_names := (names d ++ map fst own)%list;
        w_params := (dist_params ++ map snd own)%list; w_supp := s; w_frozen := fr |}.

(** [self._fit_moments(mean, sigma)]: truncated.py 155-157, censored.py 217-219, hurdle.py 172-174. *)
Definition wrap_fit (m : modifier) (fit : dist -> R -> R -> res dist) (reparam : dist -> args -> res dist)
    (w : wrapped) (mean sigma : R) : res wrapped :=
  do d <- fit (w_base w) mean sigma;
  wrap_param m reparam (w_frozen w) d (combine (names d) (params d)).
