(** Model of the elicitation functions preliz/unidimensional/maxent.py, quartile.py and matching.py: argument checks,
    the order of the effects on the distribution object, and the targets of the moment matching. Plots are left out; the
    warnings are in WarnModel.v. *)
From Coq Require Import List Bool String Ascii Reals ZArith.
From Verif Require Import Base RLists XR FamModel FitModel LawModel OptModel.
Import ListNotations.
Open Scope R_scope.

(** What these functions need from a distribution object of type [D]. Methods that change the object return it with the
    outcome; after an exception the object is in whatever state it was left. *)
Record object (D : Type) := {
  o_categorical : bool;                                       (* class name is Categorical *)
  o_frozen : D -> bool;
  o_supp : D -> xr * xr;
  o_names : D -> list string;
  o_nparams : D -> nat;                                        (* len(self.params) *)
  o_attr : D -> string -> option xr;
  o_reparam : list (string * xr) -> D -> D * res unit;         (* self._parametrization(...) *)
  o_fit : xr -> xr -> D -> D * res unit;                       (* self._fit_moments(mean, sigma) *)
  o_has_mode : D -> bool                                       (* self.mode() is implemented *) }.
Arguments o_categorical {D}. Arguments o_frozen {D}. Arguments o_supp {D}. Arguments o_names {D}. Arguments o_nparams {D}.
Arguments o_attr {D}. Arguments o_reparam {D}. Arguments o_fit {D}. Arguments o_has_mode {D}.

Definition andthen {D} (r : D * res unit) (k : D -> D * res unit) : D * res unit :=
  match r with (d, Ok _) => k d | (d, Err e) => (d, Err e) end.

(** distribution_helper.py 61-65. *)
Definition valid_distribution {D} (o : object D) : res unit := if o_categorical o then Err ValueError else Ok tt.

(** optimization.py 37-74, 93-107, 110-157: the minimiser evaluates the vectors [visited] and the vector [x] is
    installed at the end. An exception in an evaluation propagates. *)
Fixpoint optimise {D} (o : object D) (n : nat) (nf : list nat * list xr) (visited : list (list xr)) (x : list xr) (d : D)
    : D * res unit :=
  let install v d := match get_params (o_names o d) n v (fst nf) (snd nf) with
                     | Ok kw => o_reparam o kw d
                     | Err e => (d, Err e)
                     end in
  match visited with
  | [] => install x d
  | v :: r => andthen (install v d) (optimise o n nf r x)
  end.

Definition valid_stats : list string := ["mean"; "mode"; "median"; "var"; "std"; "skewness"; "kurtosis"]%string.

(** maxent.py 96-162. [search d] stands for the vectors scipy tries and the one chosen, which depend on the object. *)
Definition maxent {D} (o : object D) (default_mass : xr) (search : D -> list (list xr) * list xr) (d : D) (lower upper : xr)
    (mass : option xr) (fixed_params : option (list (string * xr))) (fixed_stat : option (string * xr)) : D * res unit :=
  match valid_distribution o with Err e => (d, Err e) | Ok _ =>
  andthen (match fixed_params with Some kw => o_reparam o kw d | None => (d, Ok tt) end) (fun d =>
  let mass := match mass with Some m => m | None => default_mass end in
  if match fixed_stat with Some (s, _) => negb (existsb (String.eqb s) valid_stats) | None => false end then (d, Err ValueError) else
  if negb (xltb (Fin 0) mass && xleb mass (Fin 1)) then (d, Err ValueError) else
  if xleb upper lower then (d, Err ValueError) else
  if o_frozen o d then (d, Err ValueError) else
  match check_endpoints (o_supp o d) lower upper with Err e => (d, Err e) | Ok _ =>
  let nf := get_fixed_params (o_attr o d) (o_names o d) in
  andthen (o_fit o (xdiv (xadd lower upper) (Fin 2)) (xdiv (xdiv (xsub upper lower) (Fin 4)) mass) d) (fun d =>
  if match fixed_stat with Some (s, _) => String.eqb s "mode" && negb (o_has_mode o d) | None => false end then (d, Err ValueError) else
  let '(visited, x) := search d in optimise o (o_nparams o d) nf visited x d)
  end)
  end.

(** quartile.py 91-127. *)
Definition quartile {D} (o : object D) (search : D -> list (list xr) * list xr) (d : D) (q1 q2 q3 : xr)
    (fixed_params : option (list (string * xr))) : D * res unit :=
  match valid_distribution o with Err e => (d, Err e) | Ok _ =>
  andthen (match fixed_params with Some kw => o_reparam o kw d | None => (d, Ok tt) end) (fun d =>
  if negb (xltb q1 q2 && xltb q2 q3) then (d, Err ValueError) else
  if o_frozen o d then (d, Err ValueError) else
  match check_endpoints (o_supp o d) q1 q3 with Err e => (d, Err e) | Ok _ =>
  let nf := get_fixed_params (o_attr o d) (o_names o d) in
  andthen (o_fit o q2 (xdiv (xsub q3 q1) (Fin 1.35)) d) (fun d =>
  let '(visited, x) := search d in optimise o (o_nparams o d) nf visited x d)
  end)
  end.

(** matching.py 92-123: the target values. From a distribution they are its moments; from an array they are computed in
    a fixed order for the letters that occur in the string. *)
Definition has_letter (c : ascii) (types : string) : bool := existsb (Ascii.eqb c) (list_ascii_of_string types).
Definition array_targets (mean var std skew kurt : xr) (types : string) : list xr :=
  ((if has_letter "m" types then [mean] else []) ++
   (if has_letter "v" types then [var] else []) ++
   (if has_letter "d" types then [std] else []) ++
   (if has_letter "s" types then [skew] else []) ++
   (if has_letter "k" types then [kurt] else []))%list.
(** matching.py 120-123: np.any, so one finite target is enough. *)
Definition targets_checked (t : list xr) : res (list xr) := if negb (existsb xisfinite t) then Err ValueError else Ok t.
(** optimization.py 128-133: the loss. Subtracting lists of different lengths raises (unless one has length one, which
    numpy broadcasts). *)
Definition broadcast (a b : list xr) : res (list (xr * xr)) :=
  if Nat.eqb (List.length a) (List.length b) then Ok (combine a b)
  else match a, b with
       | [x], _ => Ok (map (fun y => (x, y)) b)
       | _, [y] => Ok (map (fun x => (x, y)) a)
       | _, _ => Err ValueError
       end.
Definition compared (fs : moment_methods xr) (types : string) (target : list xr) : res (list (xr * xr)) :=
  do vals <- moments fs types; broadcast vals target.

(** Sample statistics of an array as matching.py 103-114 computes them (real values, non-zero spread). *)
Definition np_mean (l : list R) : R := Rsum l / INR (List.length l).
Definition np_var (l : list R) : R := np_mean (map (fun x => (x - np_mean l) ^ 2) l).
Definition np_std (l : list R) : R := sqrt (np_var l).
Definition np_standardised (l : list R) (k : nat) : R := np_mean (map (fun x => ((x - np_mean l) / np_std l) ^ k) l).
Definition sample_targets (l : list R) (types : string) : list xr :=
  array_targets (Fin (np_mean l)) (Fin (np_var l)) (Fin (np_std l)) (Fin (np_standardised l 3)) (Fin (np_standardised l 4)) types.

(** matching.py 92-117 and 224-233: the check on [from_dist], the target, and what is done to [to_dist]. [target] is
    computed from the source; [to_dist] is not checked for being frozen. *)
Definition match_to {D} (o : object D) (search : D -> list (list xr) * list xr) (source_frozen : option bool)
    (target : res (list xr)) (mean std : xr) (d : D) : D * res unit :=
  match valid_distribution o with Err e => (d, Err e) | Ok _ =>
  let nf := get_fixed_params (o_attr o d) (o_names o d) in
  match source_frozen with Some false => (d, Err ValueError) | _ =>
  match target with Err e => (d, Err e) | Ok _ =>
  andthen (o_fit o mean std d) (fun d => let '(visited, x) := search d in optimise o (o_nparams o d) nf visited x d)
  end end end.
(** matching.py 218-223: the quantiles must lie strictly between 0 and 1. *)
Definition check_quantiles (qs : list xr) : res (list xr) :=
  if existsb (fun q => xleb q (Fin 0) || xleb (Fin 1) q) qs then Err ValueError else Ok qs.

(** [_parametrization] on an existing instance of a univariate family of FamModel.v. An unknown keyword is a TypeError of
    Python's. Each class but BetaScaled assigns the attributes of its parameters again, given or not (the classes in
    preliz/distributions, lines cited in FamModel.v), never clears is_frozen, and keeps [params] when it does not update.
    The support is assigned by [_update], by [__init__] or, in discrete_uniform.py 56, skew_studentt.py 85,
    truncatednormal.py 74, uniform.py 56 and vonmises.py 57, by [_parametrization]. BetaScaled assigns its attributes in
    [__init__] only (betascaled.py 55-68): a call without both alpha and beta changes nothing. Simplifications: attributes of
    other parameter sets left over from before are not kept, and an exception leaves the instance as it was. *)
Definition assigns_support (f : family) : bool :=
  match f with DiscreteUniform | SkewStudentT | TruncatedNormal | Uniform | VonMises => true | _ => false end.
Definition reconfigure (f : family) (d0 d : dist) : dist :=
  {| names := names d; params := if frozen d then params d else params d0; attr := attr d;
     supp := if frozen d || assigns_support f then supp d else supp d0; frozen := frozen d0 || frozen d |}.
Definition known_keywords (f : family) (kw : list (string * xr)) : bool :=
  forallb (fun kv => existsb (String.eqb (fst kv)) (signature f)) kw.
Definition reparametrize (ptd : xr -> xr -> xr * xr) (f : family) (kw : list (string * xr)) (d : dist) : dist * res unit :=
  if negb (known_keywords f kw) then (d, Err TypeError) else
  match f with
  | BetaScaled =>
      let d := setN d ["alpha"; "beta"; "lower"; "upper"]%string in
      match dict_get kw "alpha"%string, dict_get kw "beta"%string with
      | Some a, Some b => (betascaled_update d (Some a) (Some b) (dict_get kw "lower"%string) (dict_get kw "upper"%string), Ok tt)
      | _, _ => (d, Ok tt)
      end
  | _ => match construct ptd f (dict_get kw) with Ok d' => (reconfigure f d d', Ok tt) | Err e => (d, Err e) end
  end.
(** The univariate families as such objects. [euler_gamma], [gamma] and [opt] are those of FitModel.v. *)
Definition family_object (ptd : xr -> xr -> xr * xr) (euler_gamma : R) (gamma : R -> xr) (opt : family -> dist -> R -> R -> res dist)
    (f : family) : object dist :=
  {| o_categorical := false;
     o_frozen := frozen;
     o_supp := supp;
     o_names := names;
     o_nparams := fun d => List.length (params d);
     o_attr := attr;
     o_reparam := reparametrize ptd f;
     o_fit := fun m s d => match m, s with
                           | Fin m, Fin s => match fit_moments euler_gamma gamma opt f d m s with
                                             | Ok d' => (d', Ok tt) | Err e => (d, Err e) end
                           | _, _ => (d, Err NaNResult)
                           end;
     o_has_mode := fun _ => true |}.
