(** Model of the highest density interval and of summary: preliz/internal/optimization.py 280-295 and 317-344,
    preliz/distributions/distributions.py 153-209 and 450-480. *)
From Coq Require Import List Bool String Reals ZArith.
From Verif Require Import Base XR LawModel.
Import ListNotations.
Open Scope R_scope.

(** optimization.py 325-328. *)
Definition interval_short (p : xr * xr) : xr := if xltb (snd p) (fst p) then PInf else xsub (snd p) (fst p).
(** optimization.py 320-323. *)
Definition interval_loss (d : methods) (censored_mass : xr) (mass : R) (p : xr * xr) : xr :=
  xsub (xadd (xsub (m_cdf d (snd p)) (m_cdf d (fst p))) censored_mass) (Fin mass).

Section Hdi.
(** scipy.optimize.minimize: objective, equality constraint, starting point, bounds of both coordinates (a single pair is
    broadcast); the point it returns. *)
Variable minimize : (xr * xr -> xr) -> (xr * xr -> xr) -> xr * xr -> xr * xr -> xr * xr.
(** np.argsort(pmf_vals)[::-1] applied to the table of values and probabilities. *)
Variable descending : list (Z * R) -> list (Z * R).

(** optimization.py 317-344. [censored] says that the class is Censored. *)
Definition continuous_hdi (censored : bool) (d : methods) (mass : R) : res (xr * xr) :=
  let '(lower, upper) := m_supp d in
  let censored_mass := if censored then xadd (m_pdf d lower) (m_pdf d upper) else Fin 0 in
  do init <- eti true true true d (Fin mass) (Some (Fin mass)) None;
  Ok (minimize interval_short (interval_loss d censored_mass mass) init (lower, upper)).

(** The probabilities as real numbers. Simplification: pdf is assumed to give a number. *)
Definition real_part (x : xr) : R := match x with Fin r => r | _ => 0 end.
Definition table (d : methods) (xs : list Z) : list (Z * R) := map (fun z => (z, real_part (m_pdf d (Fin (IZR z))))) xs.

(** optimization.py 280-295; xvals("full") is distributions.py 652-662 with 200 points. *)
Definition find_hdi (censored : bool) (d : methods) (mass : R) : res (xr * xr) :=
  match kind_of d with
  | Continuous => continuous_hdi censored d mass
  | Discrete =>
      do ep <- finite_endpoints d (Name "full");
      match ep with
      | (Fin l, Fin u) =>
          let x_vals := discrete_xvals l u 200 in
          do r <- (if Nat.ltb (List.length x_vals) 199
                   then do ab <- discrete_hdi mass (descending (table d x_vals)); Ok (Fin (IZR (fst ab)), Fin (IZR (snd ab)))
                   else continuous_hdi censored d mass);
          do lower <- py_int (fst r); do upper <- py_int (snd r); Ok (lower, upper)
      | _ => Err ValueError
      end
  end.

(** distributions.py 450-480. The flags and [fmt] are as in [eti]. *)
Definition hdi (name_ok frozen scalar censored : bool) (d : methods) (default : R) (mass : option R) (fmt : option (xr -> xr)) :
    res (xr * xr) :=
  if negb name_ok then Err ValueError else
  let mass := match mass with Some m => m | None => default end in
  if negb frozen then Err ValueError else
  if negb scalar then Err ValueError else
  do r <- find_hdi censored d mass;
  match kind_of d, fmt with
  | Continuous, Some f => Ok (f (fst r), f (snd r))
  | _, _ => Ok r
  end.

(** distributions.py 153-209. [interval] is a pair of probabilities or a word; a word that is neither "hdi" nor "eti" leaves the
    variable c_int unassigned (UnboundLocalError, written RuntimeError). fmt is a format of numbers here ("none" is an error in
    line 189). *)
Inductive interval := Quantiles (a b : xr) | Word (s : string).
Record summarised := { s_mean : xr; s_median : xr; s_std : xr; s_lower : xr; s_upper : xr }.
Definition summary (name_ok frozen scalar censored : bool) (d : methods) (mean median std : xr) (default_kind : string)
    (default : R) (mass : option R) (iv : option interval) (fmt : xr -> xr) : res summarised :=
  if negb name_ok then Err ValueError else
  let iv := match iv with Some i => i | None => Word default_kind end in
  if negb frozen then Err ValueError else
  if negb scalar then Err ValueError else
  do c <- match iv with
          | Quantiles a b => Ok (m_ppf d a, m_ppf d b)
          | Word s => if String.eqb s "hdi" then hdi true true true censored d default mass (Some fmt)
                      else if String.eqb s "eti" then eti true true true d (Fin default) (option_map Fin mass) (Some fmt)
                      else Err RuntimeError
          end;
  let '(l, u) := match kind_of d with Discrete => c | Continuous => (fmt (fst c), fmt (snd c)) end in
  Ok {| s_mean := fmt mean; s_median := fmt median; s_std := fmt std; s_lower := l; s_upper := u |}.
End Hdi.
