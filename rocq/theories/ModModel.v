(** Model of the distribution modifiers: preliz/distributions/truncated.py, censored.py, hurdle.py, mixture.py.

    A modifier gets the methods of a base distribution (LawModel.methods) and produces the methods of the new one.
    Arguments are scalars: the code works elementwise with np.where, which is the conditional. *)
From Coq Require Import List Bool ZArith Reals.
From Verif Require Import Base XR SpecialModel LawModel.
Import ListNotations.
Open Scope R_scope.

(** np.maximum and np.minimum: nan if either is nan. *)
Definition np_maximum (a b : xr) : xr := if xisnan a || xisnan b then NaN else if xltb a b then b else a.
Definition np_minimum (a b : xr) : xr := if xisnan a || xisnan b then NaN else if xltb b a then b else a.
(** np.clip(x, lo, hi) = minimum(maximum(x, lo), hi). *)
Definition np_clip (x lo hi : xr) : xr := np_minimum (np_maximum x lo) hi.
(** np.log1p. *)
Definition xlog1p (a : xr) : xr := xlog (xadd (Fin 1) a).

(* ---------------------------------------------------------------- truncated.py *)
(** truncated.py 160-163. *)
Definition adjust_lower (k : kind) (lower : xr) : xr :=
  match k with Discrete => xsub lower (Fin 1) | Continuous => lower end.

(** truncated.py 62-70: a missing bound is infinite (censored.py 65-73 is the same). *)
Definition upper_or_inf (u : option xr) : xr := match u with None => PInf | Some u => u end.
Definition lower_or_inf (l : option xr) : xr := match l with None => NInf | Some l => l end.

(** truncated.py 127-132. *)
Definition t_cdf (d : methods) (lower upper x : xr) : xr :=
  let lo := adjust_lower (kind_of d) lower in
  let lcdf := m_cdf d lo in
  let vals := xdiv (xsub (m_cdf d x) lcdf) (xsub (m_cdf d upper) lcdf) in
  if xltb x lo then Fin 0 else if xltb upper x then Fin 1 else vals.
(** truncated.py 134-139. *)
Definition t_ppf (d : methods) (lower upper q : xr) : xr :=
  let lo := adjust_lower (kind_of d) lower in
  let lcdf := m_cdf d lo in
  let vals := m_ppf d (xadd lcdf (xmul q (xsub (m_cdf d upper) lcdf))) in
  if xltb q (Fin 0) || xltb (Fin 1) q then NaN else vals.
(** truncated.py 141-145. *)
Definition t_logpdf (d : methods) (lower upper x : xr) : xr :=
  let lo := adjust_lower (kind_of d) lower in
  let vals := xsub (m_logpdf d x) (xlog (xsub (m_cdf d upper) (m_cdf d lo))) in
  if xltb x lower || xltb upper x then NInf else vals.
(** truncated.py 43-80 and 124-125; the support is that of lines 76-79. *)
Definition truncated (d : methods) (lower upper : xr) : methods := {|
  kind_of := kind_of d;
  m_cdf := t_cdf d lower upper;
  m_ppf := t_ppf d lower upper;
  m_pdf := fun x => xexp (t_logpdf d lower upper x);
  m_logpdf := t_logpdf d lower upper;
  m_supp := (np_maximum (fst (m_supp d)) lower, np_minimum (snd (m_supp d)) upper) |}.
(** truncated.py 120-122: inversion of uniform draws. *)
Definition t_rvs (d : methods) (lower upper : xr) (us : list R) : list xr :=
  map (fun u => t_ppf d lower upper (Fin u)) us.

(** Sums over a discrete grid: truncated.py 82-88 and 105-111, hurdle.py 77-83 and 100-106 (discrete branch). [xs] is the
    grid [self.xvals("full")], [pdf] the method evaluated on it. *)
Definition rsum (l : list R) : R := fold_right Rplus 0 l.
Definition grid_mean (pdf : Z -> R) (xs : list Z) : R := rsum (map (fun x => IZR x * pdf x) xs).
Definition grid_var (pdf : Z -> R) (xs : list Z) : R :=
  rsum (map (fun x => (IZR x - grid_mean pdf xs) ^ 2 * pdf x) xs).

(* ---------------------------------------------------------------- censored.py *)
(** censored.py 79-83: the bounds are clipped to the support of the base distribution. *)
Definition c_bounds (d : methods) (lower upper : xr) : xr * xr :=
  (np_maximum (fst (m_supp d)) lower, np_minimum (snd (m_supp d)) upper).
(** censored.py 175-178. [lower] and [upper] are already clipped. *)
Definition c_cdf (d : methods) (lower upper x : xr) : xr :=
  if xltb x lower then Fin 0 else if xltb upper x then Fin 1 else m_cdf d x.
(** censored.py 180-181. *)
Definition c_ppf (d : methods) (lower upper q : xr) : xr := np_clip (m_ppf d q) lower upper.
(** censored.py 183-194. *)
Definition c_logpdf (d : methods) (lower upper x : xr) : xr :=
  let vals := m_logpdf d x in
  let vals := if xltb x lower || xltb upper x then NInf else vals in
  let vals := if xeqb x lower then xlog (m_cdf d lower) else vals in
  match kind_of d with
  | Discrete => if xeqb x upper then xlog1p (xneg (m_cdf d (xsub upper (Fin 1)))) else vals
  | Continuous => if xeqb x upper then xlog1p (xneg (m_cdf d upper)) else vals
  end.
(** censored.py 46-84 and 172-173. *)
Definition censored (d : methods) (lower upper : xr) : methods :=
  let '(lo, up) := c_bounds d lower upper in {|
  kind_of := kind_of d;
  m_cdf := c_cdf d lo up;
  m_ppf := c_ppf d lo up;
  m_pdf := fun x => xexp (c_logpdf d lo up x);
  m_logpdf := c_logpdf d lo up;
  m_supp := (lo, up) |}.
(** censored.py 169-170. *)
Definition c_rvs (lower upper : xr) (draws : list xr) : list xr := map (fun x => np_clip x lower upper) draws.
(** censored.py 106-107. *)
Definition c_median (base_median lower upper : xr) : xr := np_clip base_median lower upper.

(** censored.py 86-94 and 109-124. [mean_trunc] and [var_trunc] are the mean and variance of
    [Truncated(self.dist, self.lower, self.upper)]. *)
Definition c_p_low (d : methods) (lower : xr) : xr :=
  match kind_of d with Discrete => m_cdf d (xsub lower (Fin 1)) | Continuous => m_cdf d lower end.
Definition c_mean (d : methods) (lower upper mean_trunc : xr) : xr :=
  let p_low := c_p_low d lower in
  let p_up := xsub (Fin 1) (m_cdf d upper) in
  let p_int := xsub (Fin 1) (xadd p_low p_up) in
  xadd (xadd (xprody lower p_low) (xmul mean_trunc p_int)) (xprody upper p_up).
Definition c_var (d : methods) (lower upper mean_trunc var_trunc : xr) : xr :=
  let mean := c_mean d lower upper mean_trunc in
  let p_low := c_p_low d lower in
  let p_up := xsub (Fin 1) (m_cdf d upper) in
  let p_int := xsub (Fin 1) (xadd p_low p_up) in
  let vt := xadd var_trunc (xpow (xsub mean_trunc mean) 2) in
  xadd (xadd (xprody (xpow (xsub lower mean) 2) p_low) (xmul vt p_int)) (xprody (xpow (xsub upper mean) 2) p_up).
(** censored.py 129-147. *)
Definition c_skew (d : methods) (lower upper mean_trunc var_trunc skew_trunc : xr) : xr :=
  let mean := c_mean d lower upper mean_trunc in
  let std := xhalf (c_var d lower upper mean_trunc var_trunc) in
  let p_low := c_p_low d lower in
  let p_up := xsub (Fin 1) (m_cdf d upper) in
  let p_int := xsub (Fin 1) (xadd p_low p_up) in
  let st := xadd skew_trunc (xpow (xdiv (xsub mean_trunc mean) (xhalf var_trunc)) 3) in
  xadd (xadd (xprody (xpow (xdiv (xsub lower mean) std) 3) p_low) (xmul st p_int))
       (xprody (xpow (xdiv (xsub upper mean) std) 3) p_up).

(* ---------------------------------------------------------------- hurdle.py *)
(** hurdle.py 113-121. The test [self.dist == "discrete"] compares the base object with a string, so it is always
    false and the branch with [eps] is taken for every kind. *)
Definition h_pdf (d : methods) (psi x : xr) : xr :=
  if xeqb x (Fin 0) then xsub (Fin 1) psi
  else xdiv (xmul psi (m_pdf d x)) (xsub (Fin 1) (m_cdf d (Fin eps))).
(** hurdle.py 123-133. *)
Definition h_cdf (d : methods) (psi x : xr) : xr :=
  if xleb x (Fin 0) then xsub (Fin 1) psi
  else xsub (Fin 1) (xdiv (xmul psi (xsub (Fin 1) (m_cdf d x))) (xsub (Fin 1) (m_cdf d (Fin eps)))).
(** hurdle.py 135-147. *)
Definition h_ppf (d : methods) (psi q : xr) : xr :=
  let lower := match kind_of d with Discrete => Fin 0 | Continuous => Fin eps end in
  let lcdf := m_cdf d lower in
  let vals :=
    if xleb (xsub (Fin 1) psi) q
    then m_ppf d (xadd lcdf (xdiv (xmul (xsub q (xsub (Fin 1) psi)) (xsub (Fin 1) lcdf)) psi))
    else Fin 0 in
  if xltb q (Fin 0) || xltb (Fin 1) q then NaN else vals.
(** hurdle.py 149-162. *)
Definition h_logpdf (d : methods) (psi x : xr) : xr :=
  if xeqb x (Fin 0) then xlog (xsub (Fin 1) psi)
  else xsub (xadd (xlog psi) (m_logpdf d x)) (xlog (xsub (Fin 1) (m_cdf d (Fin eps)))).
(** hurdle.py 55-75. *)
Definition hurdle (d : methods) (psi : xr) : methods := {|
  kind_of := kind_of d;
  m_cdf := h_cdf d psi;
  m_ppf := h_ppf d psi;
  m_pdf := h_pdf d psi;
  m_logpdf := h_logpdf d psi;
  m_supp := m_supp d |}.
(** hurdle.py 68-73: when the base has all its parameters the hurdle is frozen, whatever psi. *)
Definition h_frozen (base_params : list (option xr)) (psi : option xr) : bool :=
  forallb (fun p => match p with Some _ => true | None => false end) base_params.
