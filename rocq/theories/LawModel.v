(** Model of the methods that preliz/distributions/distributions.py derives from pdf, logpdf, cdf and ppf.

    A distribution object is reduced to its kind, its support and these four methods. Arguments and results are
    extended reals (scalars; numpy arrays are handled elementwise by the code). *)
From Coq Require Import List Bool String Ascii ZArith Reals.
From Verif Require Import Base XR.
Import ListNotations.
Open Scope R_scope.

Inductive kind := Discrete | Continuous.

Record methods := {
  kind_of : kind;
  m_cdf : xr -> xr;
  m_ppf : xr -> xr;
  m_pdf : xr -> xr;
  m_logpdf : xr -> xr;
  m_supp : xr * xr }.

(** distributions.py 266-304. *)
Definition logcdf (d : methods) (x : xr) : xr := xlog (m_cdf d x).
Definition sf (d : methods) (x : xr) : xr := xsub (Fin 1) (m_cdf d x).
Definition logsf (d : methods) (x : xr) : xr := xlog (sf d x).
Definition isf (d : methods) (q : xr) : xr := m_ppf d (xsub (Fin 1) q).

(** int() of a float: nan and infinities raise (ValueError and OverflowError, both reported as ValueError). *)
Definition py_int (a : xr) : res xr := np_int64 (Some a).

(** distributions.py 417-448. [name_ok] is valid_distribution (distribution_helper.py 61-65: not Categorical),
    [frozen] and [scalar] are the tests of valid_scalar_params (38-58), [fmt] is the rounding done by
    formatting and reading back ([None] for fmt="none"). *)
Definition eti (name_ok frozen scalar : bool) (d : methods) (default_mass : xr) (mass : option xr)
    (fmt : option (xr -> xr)) : res (xr * xr) :=
  if negb name_ok then Err ValueError else
  let mass := match mass with Some m => m | None => default_mass end in
  if negb frozen then Err ValueError else
  if negb scalar then Err ValueError else
  let tail := xdiv (xsub (Fin 1) mass) (Fin 2) in
  let lo := m_ppf d tail in
  let up := m_ppf d (xsub (Fin 1) tail) in
  match kind_of d, fmt with
  | Continuous, Some f => Ok (f lo, f up)
  | Continuous, None => Ok (lo, up)
  | Discrete, _ => do l <- py_int lo; do u <- py_int up; Ok (l, u)
  end.

(** distributions.py 354-385. Iterating over a string gives its characters. [fs] are the five methods. *)
Record moment_methods (A : Type) := { f_mean : A; f_std : A; f_var : A; f_skew : A; f_kurt : A }.
Arguments f_mean {A}. Arguments f_std {A}. Arguments f_var {A}. Arguments f_skew {A}. Arguments f_kurt {A}.

Definition moment_of {A} (fs : moment_methods A) (c : ascii) : res A :=
  if Ascii.eqb c "m" then Ok (f_mean fs)
  else if Ascii.eqb c "d" then Ok (f_std fs)
  else if Ascii.eqb c "v" then Ok (f_var fs)
  else if Ascii.eqb c "s" then Ok (f_skew fs)
  else if Ascii.eqb c "k" then Ok (f_kurt fs)
  else Err ValueError.

Fixpoint moments {A} (fs : moment_methods A) (types : string) : res (list A) :=
  match types with
  | EmptyString => Ok []
  | String c r => do m <- moment_of fs c; do ms <- moments fs r; Ok (m :: ms)
  end.

(** distributions.py 387-415: the same for l-moments with the letters 1, 2, 3 and 4. *)
Definition lmoment_of {A} (l1 l2 l3 l4 : A) (c : ascii) : res A :=
  if Ascii.eqb c "1" then Ok l1
  else if Ascii.eqb c "2" then Ok l2
  else if Ascii.eqb c "3" then Ok l3
  else if Ascii.eqb c "4" then Ok l4
  else Err ValueError.
Fixpoint lmoments {A} (l1 l2 l3 l4 : A) (types : string) : res (list A) :=
  match types with
  | EmptyString => Ok []
  | String c r => do m <- lmoment_of l1 l2 l3 l4 c; do ms <- lmoments l1 l2 l3 l4 r; Ok (m :: ms)
  end.

(** distributions.py 568-606. *)
Definition check_endpoints (supp : xr * xr) (lower upper : xr) : res unit :=
  let '(s_l, s_u) := supp in
  if xisfinite s_l && xltb lower s_l then Err ValueError
  else if xisfinite s_u && xltb s_u upper then Err ValueError
  else if xisfinite s_l && xisfinite s_u && xeqb lower s_l && xeqb upper s_u then Err ValueError
  else Ok tt.
Definition check_endpoints_silent (supp : xr * xr) (lower upper : xr) : bool :=
  let '(s_l, s_u) := supp in xleb s_l lower && xleb upper s_u.

(** distributions.py 608-630. *)
Inductive support_arg := Pair (l u : xr) | Name (s : string).
Definition finite_endpoints (d : methods) (support : support_arg) : res (xr * xr) :=
  match support with
  | Pair l u => Ok (l, u)
  | Name s =>
      if negb (String.eqb s "restricted" || String.eqb s "full") then Err ValueError else
      let '(l, u) := m_supp d in
      let l := if negb (xisfinite l) || String.eqb s "restricted" then m_ppf d (Fin (1 / 10000)) else l in
      let u := if negb (xisfinite u) || String.eqb s "restricted" then m_ppf d (Fin (9999 / 10000)) else u in
      Ok (l, u)
  end.

(** np.linspace(a, b, n) for real a, b and n >= 0 (a single point is [a]). *)
Definition linspace (a b : R) (n : nat) : list R :=
  match n with
  | O => []
  | S O => [a]
  | S (S k) => map (fun i => a + INR i * ((b - a) / INR (S k))) (seq 0 n)
  end.

(** np.arange(a, b) on integers. *)
Definition arange (a b : Z) : list Z := map (fun i => (a + Z.of_nat i)%Z) (seq 0 (Z.to_nat (b - a))).

(** [int(x)] on a real. *)
Definition int_of (r : R) : Z := if Rltb r 0 then (- Int_part (- r))%Z else Int_part r.

(** distributions.py 1173-1174. *)
Definition continuous_xvals (lower_ep upper_ep : R) (n : nat) : list R := linspace lower_ep upper_ep n.
(** distributions.py 1177-1191. linspace with dtype=int rounds down (numpy floors). The clipping at the largest
    int64 (1185-1187) is not modelled. *)
Definition discrete_xvals (lower_ep upper_ep : R) (n : nat) : list Z :=
  let u := int_of upper_ep in
  let l := int_of lower_ep in
  if (u - l <=? Z.of_nat n)%Z then arange l (u + 1)
  else map Int_part (linspace (IZR l) (IZR (u + 1)) n).

(** internal/optimization.py 298-314. [sorted] is the table of values and probabilities in the order of
    [np.argsort(pmf_vals)[::-1]]. *)
Fixpoint hdi_take (mass total : R) (l : list (Z * R)) : list Z :=
  match l with
  | [] => []
  | (v, p) :: r => let total := total + p in
                   v :: (if Rleb mass total then [] else hdi_take mass total r)
  end.
Definition zmin_list (l : list Z) : option Z :=
  match l with [] => None | h :: t => Some (fold_left Z.min t h) end.
Definition zmax_list (l : list Z) : option Z :=
  match l with [] => None | h :: t => Some (fold_left Z.max t h) end.
Definition discrete_hdi (mass : R) (sorted : list (Z * R)) : res (Z * Z) :=
  let vals := hdi_take mass 0 sorted in
  match zmin_list vals, zmax_list vals with
  | Some a, Some b => Ok (a, b)
  | _, _ => Err ValueError        (* min() of an empty list *)
  end.
