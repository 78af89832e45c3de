(** Model of the statistics that the modified distributions compute from a grid of values:
    preliz/internal/distribution_helper.py 86-105, preliz/distributions/truncated.py 82-118 and 147-153,
    censored.py 96-104, 126-127, 149-167 and 196-215, hurdle.py 77-107 and 164-170, mixture.py 96-106 and 127-134. *)
From Coq Require Import List Bool String Reals ZArith.
From Verif Require Import Base XR SpecialModel LawModel ModModel MixModel OptModel.
Import ListNotations.
Open Scope R_scope.

(** np.trapezoid(y, x). *)
Fixpoint panels (x0 y0 : xr) (xs ys : list xr) : xr :=
  match xs, ys with
  | x1 :: xs', y1 :: ys' => xadd (xdiv (xmul (xsub x1 x0) (xadd y1 y0)) (Fin 2)) (panels x1 y1 xs' ys')
  | _, _ => Fin 0
  end.
Definition trapezoid (xs ys : list xr) : xr := match xs, ys with x0 :: xs', y0 :: ys' => panels x0 y0 xs' ys' | _, _ => Fin 0 end.

(** The values of self.xvals(support) (distributions.py 652-662: 200 points for discrete, 1000 for continuous distributions).
    End points that are not finite are reported as an error. *)
Definition grid (d : methods) (support : string) : res (list xr) :=
  do ep <- finite_endpoints d (Name support);
  match ep with
  | (Fin l, Fin u) => Ok (match kind_of d with
      | Discrete => map (fun z => Fin (IZR z)) (discrete_xvals l u 200)
      | Continuous => map Fin (linspace l u 1000)
      end)
  | _ => Err ValueError
  end.
(** The sum or the integral of [g] over the grid: the two branches of all the functions below. *)
Definition over_grid (d : methods) (support : string) (g : xr -> xr) : res xr :=
  do xs <- grid d support;
  Ok (match kind_of d with Discrete => xsum (map g xs) | Continuous => trapezoid xs (map g xs) end).

(** truncated.py 82-88, hurdle.py 77-83. *)
Definition grid_mean_of (d : methods) : res xr := over_grid d "full" (fun x => xmul x (m_pdf d x)).
(** truncated.py 103-112, hurdle.py 98-107. *)
Definition grid_var_of (d : methods) : res xr :=
  do m <- grid_mean_of d; over_grid d "full" (fun x => xmul (xpow (xsub x m) 2) (m_pdf d x)).
Definition grid_std_of (d : methods) : res xr := do v <- grid_var_of d; Ok (xhalf v).
(** distribution_helper.py 86-94: [mean] and [std] are self.mean() and self.std(). *)
Definition num_skewness (d : methods) (mean std : xr) : res xr :=
  over_grid d "full" (fun x => xmul (xpow (xdiv (xsub x mean) std) 3) (m_pdf d x)).
(** distribution_helper.py 97-105. *)
Definition num_kurtosis (d : methods) (mean std : xr) : res xr :=
  do k <- over_grid d "full" (fun x => xmul (xpow (xdiv (xsub x mean) std) 4) (m_pdf d x)); Ok (xsub k (Fin 3)).
(** truncated.py 114-118. *)
Definition t_skewness (d : methods) : res xr := do m <- grid_mean_of d; do s <- grid_std_of d; num_skewness d m s.
Definition t_kurtosis (d : methods) : res xr := do m <- grid_mean_of d; do s <- grid_std_of d; num_kurtosis d m s.
(** truncated.py 100-101, hurdle.py 95-96, mixture.py 112-113. *)
Definition median_of (d : methods) : xr := m_ppf d (Fin (1 / 2)).
(** truncated.py 90-98, censored.py 96-104, hurdle.py 85-93, discrete branch. *)
Definition mode_of (d : methods) : res Z :=
  do ep <- finite_endpoints d (Name "full");
  match ep with
  | (Fin l, Fin u) => find_discrete_mode (fun z => match m_pdf d (Fin (IZR z)) with Fin p => p | _ => 0 end) (discrete_xvals l u 200)
  | _ => Err ValueError
  end.
(** truncated.py 147-153, hurdle.py 164-170. *)
Definition grid_entropy (d : methods) : res xr :=
  do s <- over_grid d "restricted" (fun x => xmul (xexp (m_logpdf d x)) (m_logpdf d x)); Ok (xneg s).
(** mixture.py 96-106: terms that are not finite are dropped. *)
Definition mix_entropy (d : methods) : res xr :=
  do s <- over_grid d "restricted" (fun x => let w := xmul (xexp (m_logpdf d x)) (m_logpdf d x) in if xisfinite w then w else Fin 0);
  Ok (xneg s).

(** censored.py 149-167. [mean_trunc], [var_trunc], [kurt_trunc]: moments of Truncated(self.dist, self.lower, self.upper). *)
Definition c_kurt (d : methods) (lower upper mean_trunc var_trunc kurt_trunc : xr) : xr :=
  let mean := c_mean d lower upper mean_trunc in
  let std := xhalf (c_var d lower upper mean_trunc var_trunc) in
  let p_low := c_p_low d lower in
  let p_up := xsub (Fin 1) (m_cdf d upper) in
  let p_int := xsub (Fin 1) (xadd p_low p_up) in
  let kt := xadd (xadd kurt_trunc (Fin 3)) (xpow (xdiv (xsub mean_trunc mean) (xhalf var_trunc)) 4) in
  xsub (xadd (xadd (xprody (xpow (xdiv (xsub lower mean) std) 4) p_low) (xmul kt p_int))
             (xprody (xpow (xdiv (xsub upper mean) std) 4) p_up)) (Fin 3).
(** np.nan_to_num for nan. *)
Definition nan_to_num (x : xr) : xr := match x with NaN => Fin 0 | _ => x end.
(** censored.py 196-215. [trunc_ent] is the entropy of Truncated(self.dist, self.lower, self.upper). *)
Definition c_entropy (d : methods) (lower upper trunc_ent : xr) : xr :=
  let p_low_inc := m_cdf d lower in
  let p_up := xsub (Fin 1) (m_cdf d upper) in
  let '(p_low, p_up_inc, xlogx_pl, xlogx_pu) :=
    match kind_of d with
    | Discrete =>
        let p_l := nan_to_num (m_pdf d lower) in
        let p_u := nan_to_num (m_pdf d upper) in
        let p_low := xsub p_low_inc p_l in
        (p_low, xadd p_up p_u, xlogx p_low, xlogx p_up)
    | Continuous => (p_low_inc, p_up, Fin 0, Fin 0)
    end in
  let p_int := xsub (Fin 1) (xadd p_low p_up) in
  let entropy_bound := xneg (xadd (xlogx p_low_inc) (xlogx p_up_inc)) in
  let entropy_interval := xadd (xadd (xsub (xmul trunc_ent p_int) (xlogx p_int)) xlogx_pl) xlogx_pu in
  xadd entropy_interval entropy_bound.

(** A mixture as an object with methods; [ppf] is its quantile function (find_ppf). *)
Definition answer (r : res xr) : xr := match r with Ok x => x | Err _ => NaN end.
Definition mix_methods (m : mixture) (ppf : xr -> xr) : methods := {|
  kind_of := mx_kind m;
  m_cdf := fun x => answer (mix_cdf m x);
  m_ppf := ppf;
  m_pdf := fun x => answer (mix_pdf m x);
  m_logpdf := fun x => answer (mix_logpdf m x);
  m_supp := mx_supp m |}.
(** mixture.py 127-134. *)
Definition mix_std (m : mixture) : res xr := do v <- mix_var m; Ok (xhalf v).
Definition mix_skewness (m : mixture) (ppf : xr -> xr) : res xr :=
  do mu <- mix_mean m; do s <- mix_std m; num_skewness (mix_methods m ppf) mu s.
Definition mix_kurtosis (m : mixture) (ppf : xr -> xr) : res xr :=
  do mu <- mix_mean m; do s <- mix_std m; num_kurtosis (mix_methods m ppf) mu s.
