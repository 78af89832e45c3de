(** Model of the two loops that fit every selected distribution and keep the best, preliz/internal/optimization.py 389-413
    (fit_to_epdf, behind Roulette and combine_roulette) and 453-478 (fit_to_quartile, behind QuartileInt), with the
    parameters the user fixed in the "params" box. *)
From Coq Require Import List Bool String Reals ZArith.
From Verif Require Import Base RLists XR FamModel FitModel LawModel OptModel SampleModel CatModel ApiModel.
Import ListNotations.
Open Scope R_scope.
Open Scope string_scope.

(** One selected distribution. What scipy tries and chooses ([c_search]) and the cost it reports ([c_cost]) depend on the
    instance. *)
Record candidate (D : Type) := {
  c_name : string;                                   (* dist.__class__.__name__ *)
  c_object : object D;
  c_bounds : R -> R -> D -> D;                       (* update_bounds_beta_scaled, optimization.py 481-485 *)
  c_search : D -> list (list xr) * list xr;
  c_cost : D -> xr;                                  (* opt["cost"] *)
  c_discrete : bool;
  c_cdf : D -> xr -> xr;
  c_start : D                                        (* the new instance of get_distributions *) }.
Arguments c_name {D}. Arguments c_object {D}. Arguments c_bounds {D}. Arguments c_search {D}. Arguments c_cost {D}.
Arguments c_discrete {D}. Arguments c_cdf {D}. Arguments c_start {D}.

(** The keywords process_extra found for each class name (distribution_helper.py 68-83, TextModel.v). combine_roulette.py
    33-34 passes an empty list when there is no text, in which no name is found either. *)
Definition extras := list (string * list (string * xr)).

(** optimization.py 407-409 and 467-471: the parameters that have a value are kept, the others fitted. *)
Definition refit {D} (o : object D) (search : D -> list (list xr) * list xr) (mean sigma : xr) (d : D) : D * res unit :=
  let nf := get_fixed_params (o_attr o d) (o_names o d) in
  andthen (o_fit o mean sigma d) (fun d => let '(visited, x) := search d in optimise o (o_nparams o d) nf visited x d).

(** optimization.py 398-409: [None] when the grid is not within the support. *)
Definition epdf_one {D} (extra : extras) (x_min x_max : R) (mean std : xr) (c : candidate D) : res (option D) :=
  let o := c_object c in
  do d <- match dict_get extra (c_name c) with
          | None => Ok (c_start c)
          | Some kw => match o_reparam o kw (c_start c) with
                       | (d, Ok _) => Ok d
                       | (d, Err TypeError) => Ok d
                       | (_, Err e) => Err e
                       end
          end;
  let d := if String.eqb (c_name c) "BetaScaled" then c_bounds c x_min x_max d else d in
  if check_endpoints_silent (o_supp o d) (Fin x_min) (Fin x_max) then
    match refit o (c_search c) mean std d with (d, Ok _) => Ok (Some d) | (_, Err e) => Err e end
  else Ok None.
(** optimization.py 396-397 and 411-413. *)
Fixpoint epdf_loop {D} (extra : extras) (x_min x_max : R) (mean std : xr) (cs : list (candidate D)) (st : loss_state D)
    : res (loss_state D) :=
  match cs with
  | [] => Ok st
  | c :: r => do out <- epdf_one extra x_min x_max mean std c;
              epdf_loop extra x_min x_max mean std r
                (match out with Some d => loss_update st (c_cost c d) d | None => st end)
  end.
Definition run_epdf {D} (extra : extras) (x_min x_max : R) (mean std : xr) (cs : list (candidate D)) : res (option D) :=
  do st <- epdf_loop extra x_min x_max mean std cs new_loss; Ok (best st).

(** optimization.py 458-471. Simplification: bounds that are not finite are not modelled. *)
Definition quartile_one {D} (extra : extras) (q1 q2 q3 : R) (c : candidate D) : res (option D) :=
  let o := c_object c in
  do d <- match dict_get extra (c_name c) with
          | None => Ok (c_start c)
          | Some kw => match o_reparam o kw (c_start c) with
                       | (_, Err e) => Err e
                       | (d, Ok _) =>
                           if String.eqb (c_name c) "BetaScaled" then
                             match dict_get kw "lower", dict_get kw "upper" with
                             | Some (Fin lo), Some (Fin up) => Ok (c_bounds c lo up d)
                             | None, _ | _, None => Err KeyError
                             | _, _ => Err NaNResult
                             end
                           else Ok d
                       end
          end;
  if check_endpoints_silent (o_supp o d) (Fin q1) (Fin q3) then
    match refit o (c_search c) (Fin q2) (Fin ((q3 - q1) / 1.35)) d with (d, Ok _) => Ok (Some d) | (_, Err e) => Err e end
  else Ok None.
(** optimization.py 473, with 382-386. *)
Definition quartile_error {D} (q1 q3 : R) (c : candidate D) (d : D) : xr :=
  relative_error (c_discrete c) (c_cdf c d) (Fin q1) (Fin q3) (Fin 0.5).
(** optimization.py 454-457 and 474-478. *)
Fixpoint quartile_loop {D} (extra : extras) (q1 q2 q3 : R) (cs : list (candidate D)) (error : xr) (fitted : option D)
    : res (option D) :=
  match cs with
  | [] => Ok fitted
  | c :: r => do out <- quartile_one extra q1 q2 q3 c;
              match out with
              | Some d => let e := quartile_error q1 q3 c d in
                          if xltb e error then quartile_loop extra q1 q2 q3 r e (Some d)
                          else quartile_loop extra q1 q2 q3 r error fitted
              | None => quartile_loop extra q1 q2 q3 r error fitted
              end
  end.
Definition run_quartile {D} (extra : extras) (q1 q2 q3 : R) (cs : list (candidate D)) : res (option D) :=
  quartile_loop extra q1 q2 q3 cs PInf None.

(** A family as a candidate: distribution_helper.py 256-266 creates the instance without arguments. *)
Definition new_instance (ptd : xr -> xr -> xr * xr) (f : family) : dist :=
  match construct ptd f (fun _ => None) with Ok d => d | Err _ => fresh (NaN, NaN) end.
Definition family_candidate (ptd : xr -> xr -> xr * xr) (euler_gamma : R) (gamma : R -> xr)
    (opt : family -> dist -> R -> R -> res dist) (f : family) (search : dist -> list (list xr) * list xr) (cost : dist -> xr)
    (discrete : bool) (cdf : dist -> xr -> xr) : candidate dist :=
  {| c_name := family_name f; c_object := family_object ptd euler_gamma gamma opt f;
     c_bounds := fun lo up d => update_bounds d lo up; c_search := search; c_cost := cost; c_discrete := discrete;
     c_cdf := cdf; c_start := new_instance ptd f |}.
