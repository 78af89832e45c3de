(** Model of the button "return prior" of ppa: preliz/predictive/ppa.py 388-405 (on_return_prior) and
    preliz/internal/predictive_helper.py 7-32 (back_fitting_ppa). The model is the dictionary built by from_preliz: one new
    distribution per prior, no two entries share an object, so objects are values and an entry is replaced when its object is
    fitted in place. The text shown is represented by what it is formatted from: a list of names and distributions. *)
From Coq Require Import List Bool String Arith.
From Verif Require Import Base XR.
Import ListNotations.
Open Scope string_scope.
Open Scope list_scope.

Section Prior.
Variables (Obj Sample Param : Type).
Variables cls kind : Obj -> string.                     (* __class__.__name__ and kind *)
Variable default : string -> res Obj.                   (* getattr(preliz.distributions, name)() *)
Variable fit_mle : Obj -> Sample -> res Obj.            (* _fit_mle *)
(** One pass of the loop of fit_to_sample, optimization.py 419-447 (see BackModel). *)
Variable fit : Obj -> Sample -> res (Obj * xr).
Variable argsort : list xr -> list nat.                 (* np.argsort *)
Variable params : Obj -> list Param.
(** The order in which a Python set built from a list yields its elements: each once, in an arbitrary order. *)
Variable set_order : list string -> list string.

Definition model := list (string * Obj).
Definition lookup (subset : list (string * Sample)) (name : string) : res Sample :=
  match find (fun kv => String.eqb (fst kv) name) subset with Some kv => Ok (snd kv) | None => Err KeyError end.

(** predictive_helper.py 11-13: every prior is fitted in place to its own draws. The dictionary after the loop, and the
    entries reported or the exception that ended it. *)
Fixpoint fit_original (subset : list (string * Sample)) (m : model) : model * res model :=
  match m with
  | [] => ([], Ok [])
  | (name, o) :: r =>
      match (do s <- lookup subset name; fit_mle o s) with
      | Err e => (m, Err e)
      | Ok o' => let '(m', rep) := fit_original subset r in
                 ((name, o') :: m', do l <- rep; Ok ((name, o') :: l))
      end
  end.

(** distribution_helper.py 256-266. *)
Fixpoint build (names : list string) : res (list Obj) :=
  match names with [] => Ok [] | n :: r => do o <- default n; do l <- build r; Ok (o :: l) end.

(** mle.py 70-99 with plot=False: the candidates as they are after the fit, and their positions from best to worst. *)
Fixpoint all_valid (ds : list Obj) : bool :=
  match ds with [] => true | o :: r => negb (String.eqb (cls o) "Categorical") && all_valid r end.
Fixpoint fit_loop (ds : list Obj) (s : Sample) : res (list (Obj * xr)) :=
  match ds with [] => Ok [] | o :: r => do x <- fit o s; do l <- fit_loop r s; Ok (x :: l) end.
Definition mle (ds : list Obj) (s : Sample) : res (list Obj * list nat) :=
  if all_valid ds then do l <- fit_loop ds s; Ok (map fst l, argsort (map snd l)) else Err ValueError.

Definition common_cont : list string := ["Gamma"; "Exponential"].
Definition common_disc : list string := ["Poisson"; "NegativeBinomial"].

(** predictive_helper.py 22-29. [current] is the local variable [distributions]: neither branch assigns it for another kind,
    which raises (UnboundLocalError) or goes on with the candidates of the variable before. *)
Fixpoint new_loop (subset : list (string * Sample)) (current : option (list Obj)) (m : model) : res model :=
  match m with
  | [] => Ok []
  | (name, o) :: r =>
      do ds <- (if String.eqb (kind o) "continuous" then build (set_order (cls o :: common_cont))
                else if String.eqb (kind o) "discrete" then build (set_order (cls o :: common_disc))
                else match current with Some ds => Ok ds | None => Err NameError end);
      do s <- lookup subset name;
      do x <- mle ds s; let '(fitted, idx) := x in
      do best <- (match idx with [] => Err IndexError
                  | i :: _ => match nth_error fitted i with Some b => Ok b | None => Err IndexError end end);
      do l <- new_loop subset (Some fitted) r;
      Ok ((name, best) :: l)
  end.

(** predictive_helper.py 7-32: the dictionary afterwards; the entries of the first list, those of the second (None when it is
    not wanted) and the parameters of all priors, one after the other. *)
Definition back_fitting_ppa (m : model) (subset : list (string * Sample)) (new_families : bool)
    : model * res (model * option model * list Param) :=
  let '(m', rep) := fit_original subset m in
  (m', do first <- rep;
       do second <- (if new_families then do l <- new_loop subset None m'; Ok (Some l) else Ok None);
       Ok (first, second, flat_map (fun nv => params (snd nv)) m')).

(** ppa.py 388-405 and predictive_helper.py 33-37. [draws name] are the prior draws of a variable, [take] is numpy's indexing
    by a list of positions. *)
Inductive screen := AskForMore | Priors (first : model) (second : option model).
Variable take : Sample -> list nat -> Sample.
Fixpoint select (prior : list (string * Sample)) (selected : list nat) (names : list string) : res (list (string * Sample)) :=
  match names with
  | [] => Ok []
  | n :: r => do s <- lookup prior n; do l <- select prior selected r; Ok ((n, take s selected) :: l)
  end.
Definition on_return_prior (m : model) (prior : list (string * Sample)) (selected : list nat) (new_families : bool)
    : model * res screen :=
  if Nat.ltb 4 (List.length selected) then
    match select prior selected (map fst m) with
    | Err e => (m, Err e)
    | Ok subset => let '(m', r) := back_fitting_ppa m subset new_families in
                   (m', do x <- r; Ok (let '(a, b, _) := x in Priors a b))
    end
  else (m, Ok AskForMore).
End Prior.
