(** Model of the Categorical distribution (/repo/preliz/distributions/categorical.py, lines 42-80) and of its interactive plot
    (/repo/preliz/distributions/distributions.py, lines 1083-1103). The functions of its law are those of
    pytensor_distributions and are not part of this model. *)
From Coq Require Import Reals List String Bool ZArith Ascii.
From Verif Require Import Base XR RLists SpecialModel.
Import ListNotations.
Local Open Scope R_scope.
Local Open Scope string_scope.
Local Open Scope list_scope.

(** The attributes. [c_name] is [param_names[0]]. *)
Record categorical := {
  c_p : option (list xr); c_logit : option (list xr); c_name : string;
  c_params : option (list xr); c_support : option (Z * Z); c_frozen : bool }.

(** categorical.py 42-44: the attributes before [_parametrization]. *)
Definition blank : categorical :=
  {| c_p := None; c_logit := None; c_name := ""; c_params := None; c_support := None; c_frozen := false |}.

(** categorical.py 70-80; [logit] works element by element. *)
Definition update (d : categorical) (p : list xr) : categorical :=
  let lp := map xlogit p in
  {| c_p := Some p; c_logit := Some lp; c_name := c_name d;
     c_params := if String.eqb (c_name d) "p" then Some p else if String.eqb (c_name d) "logit_p" then Some lp else c_params d;
     c_support := c_support d; c_frozen := true |}.

(** categorical.py 47-68; [expit] works element by element. *)
Definition parametrize (d : categorical) (p logit_p : option (list xr)) : res categorical :=
  match p, logit_p with
  | Some _, Some _ => Err ValueError
  | _, _ =>
    let name := match logit_p with Some _ => "logit_p" | None => "p" end in
    let p := match logit_p with Some l => Some (map xexpit l) | None => p end in
    let d := {| c_p := p; c_logit := logit_p; c_name := name; c_params := c_params d; c_support := c_support d; c_frozen := c_frozen d |} in
    match p with
    | None => Ok d
    | Some ps =>
      Ok (update {| c_p := p; c_logit := logit_p; c_name := name; c_params := c_params d;
                    c_support := Some (0%Z, (Z.of_nat (List.length ps) - 1)%Z); c_frozen := c_frozen d |} ps)
    end
  end.
Definition create (p logit_p : option (list xr)) : res categorical := parametrize blank p logit_p.

(** [_parametrization(name=values)]: a name that is not an argument is a TypeError. *)
Definition parametrize_by_name (d : categorical) (name : string) (values : list xr) : res categorical :=
  if String.eqb name "p" then parametrize d (Some values) None
  else if String.eqb name "logit_p" then parametrize d None (Some values)
  else Err TypeError.

(** [s.split("_")[0]] *)
Fixpoint before_underscore (s : string) : string :=
  match s with
  | EmptyString => EmptyString
  | String c s' => if Ascii.eqb c "_"%char then EmptyString else String c (before_underscore s')
  end.

(** distributions.py 1096-1103: the callback of the sliders, at the positions [values] (the first key is the name of the
    parameter followed by _0). None is a call that draws nothing. A distribution without probabilities has no first key. *)
Definition on_sliders (d : categorical) (values : list R) : res (option categorical) :=
  match values with
  | [] => Err IndexError
  | _ =>
    let key := before_underscore (append (c_name d) "_0") in
    if Rltb 1 (Rsum values) then Ok None
    else do d' <- parametrize_by_name d key (map Fin values); Ok (Some d')
  end.

(** categorical.py 82-123 and 126-188: each method calls the function of pytensor_distributions.categorical named in the
    second place, with the argument of the call, if it has one, and p. [lib] is that module. Random numbers are an argument. *)
Definition law_of (method : string) : option string :=
  if existsb (String.eqb method) ["pdf"; "cdf"; "ppf"; "logpdf"; "entropy"; "mean"; "mode"; "median"; "var"; "std"; "skewness"; "kurtosis"; "rvs"]
  then Some method else None.
(** distributions.py 338-352: the L-moments raise NotImplementedError, a RuntimeError. Other names are AttributeErrors. *)
Definition evaluate {A B} (lib : string -> option A -> option (list xr) -> res B) (d : categorical) (method : string) (arg : option A) : res B :=
  match law_of method with
  | Some f => lib f arg (c_p d)
  | None => if existsb (String.eqb method) ["lmoment1"; "lmoment2"; "lmoment3"; "lmoment4"] then Err RuntimeError else Err AttributeError
  end.
(** mle of one Categorical: optimization.py 423-448 (for one sample) with distributions.py 583 and 606, categorical.py 122-123
    and optimization.py 244. The support is (None, None) before the first parametrization, and None cannot be compared. No
    class above Categorical has _fit_moments. [None] is a candidate that is left out (its loss is infinite). *)
Definition fit_one (d : categorical) (x_min x_max : xr) : res (option categorical) :=
  match c_support d with
  | None => Err TypeError
  | Some (l, u) => if xleb (Fin (IZR l)) x_min && xleb x_max (Fin (IZR u)) then Err AttributeError else Ok None
  end.
