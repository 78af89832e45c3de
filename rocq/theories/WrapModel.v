(** Truncated, Censored, Hurdle and Mixture instances given to maxent, quartile, match_moments, match_quantiles and mle:
    preliz/distributions/truncated.py, censored.py, hurdle.py, mixture.py, with get_fixed_params and fit_to_sample of
    preliz/internal/optimization.py. The elicitation functions themselves are those of ApiModel.v. *)
From Coq Require Import List Bool String Reals.
From Verif Require Import Base XR FamModel FitModel LawModel OptModel ApiModel.
Import ListNotations.
Open Scope string_scope.
Open Scope R_scope.

(* ------------------------------------------------------------ Truncated, Censored, Hurdle *)
(** A modifier of an object of type [D]. [wb_attr] holds the attributes set by setattr and by the assignments to lower,
    upper and psi; [None]: there is no such attribute. *)
Record wob (D : Type) := mkWob {
  wb_base : D;
  wb_attr : string -> option (option xr);
  wb_names : list string;
  wb_params : list (option xr);
  wb_supp : xr * xr;
  wb_frozen : bool }.
Arguments mkWob {D}. Arguments wb_base {D}. Arguments wb_attr {D}. Arguments wb_names {D}. Arguments wb_params {D}.
Arguments wb_supp {D}. Arguments wb_frozen {D}.

Fixpoint set_attrs (l : list (string * option xr)) (a : string -> option (option xr)) : string -> option (option xr) :=
  match l with
  | [] => a
  | (k, v) :: r => set_attrs r (fun x => if String.eqb x k then Some v else a x)
  end.
(** A dictionary all of whose values are given. *)
Fixpoint values (l : list (string * option xr)) : list (string * xr) :=
  match l with [] => [] | (k, Some v) :: r => (k, v) :: values r | (_, None) :: r => values r end.
Definition or_default (v : option xr) (x : xr) : xr := match v with Some y => y | None => x end.

Section Wrap.
Context {D : Type}.
Variable b : object D.                                       (* the methods of the wrapped object *)
Variable bparams : D -> option (list (option xr)).           (* its params; None: no such attribute *)
Variable m : modifier.

(** truncated.py 48-80, censored.py 51-84, hurdle.py 55-75: [own] gives the arguments lower and upper (psi), [kwargs] the
    other keyword arguments. After an exception of the wrapped object's the assignments made before remain. *)
Definition wparam (own : string -> option xr) (kwargs : list (string * option xr)) (w : wob D) : wob D * res unit :=
  let d := wb_base w in
  let kwargs := match kwargs with
                | [] => match bparams d with
                        | Some ps => combine (o_names b d) ps
                        | None => map (fun n => (n, None)) (o_names b d)
                        end
                | _ => kwargs
                end in
  let mine := match m with
              | Hurd => [("psi", own "psi")]
              | _ => [("lower", Some (or_default (own "lower") NInf)); ("upper", Some (or_default (own "upper") PInf))]
              end in
  let attrs := set_attrs (kwargs ++ mine) (wb_attr w) in
  let names := (o_names b d ++ own_names m)%list in
  let params := (map snd kwargs ++ map snd mine)%list in
  let '(d, frozen, r) := if all_not_none (map snd kwargs)
                         then match o_reparam b (values kwargs) d with
                              | (d', Ok _) => (d', true, Ok tt)
                              | (d', Err e) => (d', wb_frozen w, Err e)
                              end
                         else (d, wb_frozen w, Ok tt) in
  match r with
  | Err e => (mkWob d attrs names params (wb_supp w) frozen, Err e)
  | Ok _ =>
      let s := match m with
               | Hurd => o_supp b d
               | _ => (w_max (fst (o_supp b d)) (or_default (own "lower") NInf), w_min (snd (o_supp b d)) (or_default (own "upper") PInf))
               end in
      let attrs := match m with
                   | Cens => set_attrs [("lower", Some (fst s)); ("upper", Some (snd s))] attrs
                   | _ => attrs end in
      (mkWob d attrs names params s frozen, Ok tt)
  end.

(** [self._parametrization( **kw )]: the names of the method's own parameters bind to them. *)
Definition is_own (k : string) : bool := existsb (String.eqb k) (own_names m).
Definition wcall (kw : list (string * option xr)) (w : wob D) : wob D * res unit :=
  wparam (fun k => flat (lookup kw k)) (filter (fun kv => negb (is_own (fst kv))) kw) w.

(** [Truncated(dist, lower, upper, **kwargs)] and so on: truncated.py 43-46, censored.py 46-49, hurdle.py 50-53. *)
Definition wrap_new (d : D) (own : string -> option xr) (kwargs : list (string * option xr)) : wob D * res unit :=
  wparam own kwargs (mkWob d (fun _ => None) [] [] (NaN, NaN) false).

(** truncated.py 155-157, censored.py 217-219, hurdle.py 172-174. *)
Definition wfit (mean sigma : xr) (w : wob D) : wob D * res unit :=
  let '(d, r) := o_fit b mean sigma (wb_base w) in
  let w := mkWob d (wb_attr w) (wb_names w) (wb_params w) (wb_supp w) (wb_frozen w) in
  match r with
  | Err e => (w, Err e)
  | Ok _ => match bparams d with
            | Some ps => wcall (combine (o_names b d) ps) w
            | None => (w, Err AttributeError)
            end
  end.

(** A modifier as an object of ApiModel.v. Its mode is found numerically (truncated.py 90-98, censored.py 96-104,
    hurdle.py 85-93). Simplification: a name without attribute counts as None; the instances of the theorems have all of
    them. *)
Definition wrap_object : object (wob D) :=
  {| o_categorical := false;
     o_frozen := wb_frozen;
     o_supp := wb_supp;
     o_names := wb_names;
     o_nparams := fun w => List.length (wb_params w);
     o_attr := fun w k => flat (wb_attr w k);
     o_reparam := fun kw => wcall (map (fun kv => (fst kv, Some (snd kv))) kw);
     o_fit := wfit;
     o_has_mode := fun _ => true |}.
End Wrap.

(** optimization.py 37-43: maxent starts from the current parameters at the free places and multiplies them by factors;
    multiplying None raises TypeError. *)
Fixpoint start_values (params : list (option xr)) (none_idx : list nat) : res (list xr) :=
  match none_idx with
  | [] => Ok []
  | i :: r => do v <- index params i; match v with None => Err TypeError | Some x => do xs <- start_values params r; Ok (x :: xs) end
  end.

(** The attribute params of an instance of a univariate family: set by _update only. *)
Definition family_params (d : dist) : option (list (option xr)) := match params d with [] => None | ps => Some ps end.

(* ------------------------------------------------------------ Mixture *)
(** A mixture of objects of type [D]. The entry "weights" of params is [mo_given]; [mo_weights] is the attribute. *)
Record mob (D : Type) := mkMob {
  mo_dists : list D;
  mo_names : list string;
  mo_params : list (option xr);
  mo_given : option (list R);
  mo_weights : option (list xr);
  mo_supp : xr * xr;
  mo_frozen : bool }.
Arguments mkMob {D}. Arguments mo_dists {D}. Arguments mo_names {D}. Arguments mo_params {D}. Arguments mo_given {D}.
Arguments mo_weights {D}. Arguments mo_supp {D}. Arguments mo_frozen {D}.

(** Methods and instance attributes of a modifier: distributions.py 39-41 and 1164-1170, the methods of Distribution
    (distributions.py 31-1142) and those of the class (truncated.py, censored.py, hurdle.py and mixture.py). *)
Definition base_members : list string :=
  ["is_frozen"; "opt"; "kind"; "dist"; "params"; "param_names"; "params_support"; "support"; "__init__"; "_parametrization";
   "_get_name"; "_get_description"; "__repr__"; "_repr_html_"; "params_dict"; "info"; "summary"; "rvs"; "pdf"; "cdf"; "ppf";
   "logpdf"; "_neg_logpdf"; "logcdf"; "sf"; "logsf"; "isf"; "entropy"; "mean"; "median"; "mode"; "std"; "var"; "skewness";
   "kurtosis"; "lmoment1"; "lmoment2"; "lmoment3"; "lmoment4"; "moments"; "lmoments"; "eti"; "hdi"; "to_pymc"; "to_bambi";
   "_check_endpoints"; "_finite_endpoints"; "xvals"; "plot_pdf"; "plot_cdf"; "plot_ppf"; "plot_sf"; "plot_isf";
   "plot_interactive"; "_unpack_distribution"; "_fit_moments"].
Definition mixture_members : list string := "weights" :: base_members.

Section Mixture.
Context {D : Type}.
Variable b : object D.
Variable bparams : D -> option (list (option xr)).

Definition mins (l : list xr) : res xr := match l with [] => Err ValueError | a :: r => Ok (fold_left w_min r a) end.
Definition maxs (l : list xr) : res xr := match l with [] => Err ValueError | a :: r => Ok (fold_left w_max r a) end.
(** mixture.py 51-75. *)
Definition mix_param (dists : list D) (weights : option (list R)) (was : bool) : res (mob D) :=
  let ps := List.concat (map (fun d => match bparams d with Some ps => ps | None => map (fun _ => None) (o_names b d) end) dists) in
  do lo <- mins (map (fun d => fst (o_supp b d)) dists);
  do up <- maxs (map (fun d => snd (o_supp b d)) dists);
  let all := all_not_none ps && match weights with Some _ => true | None => false end in
  Ok {| mo_dists := dists;
        mo_names := (List.concat (map (o_names b) dists) ++ ["weights"])%list;
        mo_params := ps;
        mo_given := weights;
        mo_weights := match weights with
                      | None => None
                      | Some w => Some (if all then map (fun x => xdiv (Fin x) (Fin (RLists.Rsum w))) w else map Fin w)
                      end;
        mo_supp := (lo, up);
        mo_frozen := was || all |}.

(** mixture.py 146-150: the first exception stops the loop; the components before it stay fitted. *)
Fixpoint fit_all (mean sigma : xr) (ds : list D) : list D * res unit :=
  match ds with
  | [] => ([], Ok tt)
  | d :: r => match o_fit b mean sigma d with
              | (d', Ok _) => let '(r', e) := fit_all mean sigma r in (d' :: r', e)
              | (d', Err e) => (d' :: r, Err e)
              end
  end.
Definition mix_fit (mean sigma : xr) (w : mob D) : mob D * res unit :=
  let '(ds, r) := fit_all mean sigma (mo_dists w) in
  match r with
  | Err e => (mkMob ds (mo_names w) (mo_params w) (mo_given w) (mo_weights w) (mo_supp w) (mo_frozen w), Err e)
  | Ok _ => (mkMob ds (mo_names w) (mo_params w) (mo_given w)
                   (Some (repeat (Fin (1 / INR (List.length ds))) (List.length ds))) (mo_supp w) true, Ok tt)
  end.

(** optimization.py 517-526 on a mixture: getattr of a name that is no member raises AttributeError. A name that is one
    would have some value, [v]. *)
Fixpoint mix_fixed {A} (v : string -> option A) (idx : nat) (names : list string) : res (list nat * list A) :=
  match names with
  | [] => Ok ([], [])
  | n :: r => if existsb (String.eqb n) mixture_members then
                do (ni, fx) <- mix_fixed v (S idx) r;
                Ok (match v n with None => (idx :: ni, fx) | Some x => (ni, x :: fx) end)
              else Err AttributeError
  end.

(** maxent.py 96-140, quartile.py 91-118 and matching.py 100-117, 224-230 on a mixture, up to get_fixed_params;
    [rest] is what comes after. fixed_params is None. *)
Definition mix_maxent {A} (v : string -> option A) (rest : list nat * list A -> mob D -> mob D * res unit) (default_mass : xr)
    (w : mob D) (lower upper : xr) (mass : option xr) (fixed_stat : option (string * xr)) : mob D * res unit :=
  let mass := match mass with Some m => m | None => default_mass end in
  if match fixed_stat with Some (s, _) => negb (existsb (String.eqb s) valid_stats) | None => false end then (w, Err ValueError) else
  if negb (xltb (Fin 0) mass && xleb mass (Fin 1)) then (w, Err ValueError) else
  if xleb upper lower then (w, Err ValueError) else
  if mo_frozen w then (w, Err ValueError) else
  match check_endpoints (mo_supp w) lower upper with Err e => (w, Err e) | Ok _ =>
  match mix_fixed v 0 (mo_names w) with Err e => (w, Err e) | Ok nf => rest nf w end end.
Definition mix_quartile {A} (v : string -> option A) (rest : list nat * list A -> mob D -> mob D * res unit)
    (w : mob D) (q1 q2 q3 : xr) : mob D * res unit :=
  if negb (xltb q1 q2 && xltb q2 q3) then (w, Err ValueError) else
  if mo_frozen w then (w, Err ValueError) else
  match check_endpoints (mo_supp w) q1 q3 with Err e => (w, Err e) | Ok _ =>
  match mix_fixed v 0 (mo_names w) with Err e => (w, Err e) | Ok nf => rest nf w end end.
Definition mix_match {A} (v : string -> option A) (rest : list nat * list A -> mob D -> mob D * res unit) (w : mob D)
    : mob D * res unit :=
  match mix_fixed v 0 (mo_names w) with Err e => (w, Err e) | Ok nf => rest nf w end.
End Mixture.

(* ------------------------------------------------------------ mle *)
(** optimization.py 423-446 (one-dimensional sample) for an instance whose class has the methods [members]: a sample
    outside the support has an infinite loss; otherwise dist._fit_mle is looked up. [fit] stands for that method. *)
Definition modifier_fit_one {W} (members : list string) (fit : W -> res (W * xr)) (supp : xr * xr) (x_min x_max : R) (w : W) : res (W * xr) :=
  if check_endpoints_silent supp (Fin x_min) (Fin x_max) then
    if existsb (String.eqb "_fit_mle") members then fit w else Err AttributeError
  else Ok (w, PInf).
