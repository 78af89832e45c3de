(** Model of preliz/internal/optimization.py: bookkeeping of fixed parameters, multi-start selection, ranking of fits,
    penalty, discrete mode and the Dirichlet concentration search. scipy's minimisers are parameters: whatever they
    return is quantified over in the theorems. *)
From Coq Require Import List Bool String Reals ZArith.
From Verif Require Import Base RLists XR FamModel.
Import ListNotations.
Open Scope R_scope.

(* ------------------------------------------------------------ fixed and free parameters *)
(** optimization.py 517-526: indices of the parameters that are None, values of the others. [getattr] reads an
    attribute; the loop is over [param_names]. *)
Fixpoint get_fixed {A} (getattr : string -> option A) (idx : nat) (names : list string) : list nat * list A :=
  match names with
  | [] => ([], [])
  | p :: r =>
      let '(none_idx, fixed) := get_fixed getattr (S idx) r in
      match getattr p with
      | None => (idx :: none_idx, fixed)
      | Some v => (none_idx, v :: fixed)
      end
  end.
Definition get_fixed_params {A} (getattr : string -> option A) (names : list string) : list nat * list A :=
  get_fixed getattr 0 names.

(** optimization.py 77-90: the keyword arguments for [_parametrization]. [n] is len(dist.params); indexing past the end
    of a list raises IndexError. The dictionary is an association list in insertion order; a repeated name would
    overwrite, which [dict_set] does. *)
Fixpoint dict_set {A} (d : list (string * A)) (k : string) (v : A) : list (string * A) :=
  match d with
  | [] => [(k, v)]
  | (k', v') :: r => if String.eqb k k' then (k, v) :: r else (k', v') :: dict_set r k v
  end.
Definition index {A} (l : list A) (i : nat) : res A := match nth_error l i with Some x => Ok x | None => Err IndexError end.
Fixpoint get_params_loop {A} (names : list string) (params : list A) (none_idx : list nat) (fixed : list A)
    (idxs : list nat) (pdx fdx : nat) (acc : list (string * A)) : res (list (string * A)) :=
  match idxs with
  | [] => Ok acc
  | idx :: r =>
      do name <- index names idx;
      if existsb (Nat.eqb idx) none_idx
      then do v <- index params pdx; get_params_loop names params none_idx fixed r (S pdx) fdx (dict_set acc name v)
      else do v <- index fixed fdx; get_params_loop names params none_idx fixed r pdx (S fdx) (dict_set acc name v)
  end.
Definition get_params {A} (names : list string) (n : nat) (params : list A) (none_idx : list nat) (fixed : list A)
    : res (list (string * A)) :=
  get_params_loop names params none_idx fixed (seq 0 n) 0 0 [].

Fixpoint dict_get {A} (d : list (string * A)) (k : string) : option A :=
  match d with [] => None | (k', v) :: r => if String.eqb k k' then Some v else dict_get r k end.

(** The pattern of optimize_max_ent 34-74, optimize_quartile 93-107, optimize_pdf 110-125, optimize_moments 128-141,
    optimize_quantiles 144-157 and optimize_mean_sigma 160-196: every objective evaluation and the final step install
    [get_params] of the vector they are given. [reparam] is [dist._parametrization], [visited] are the vectors the
    minimiser tried and [x] is the one it returned. *)
Fixpoint install_all {A S} (reparam : list (string * A) -> res S) (names : list string) (n : nat) (none_idx : list nat)
    (fixed : list A) (visited : list (list A)) (x : list A) : res S :=
  match visited with
  | [] => do kw <- get_params names n x none_idx fixed; reparam kw
  | v :: r => do kw <- get_params names n v none_idx fixed;
              do _ <- reparam kw;
              install_all reparam names n none_idx fixed r x
  end.

(* ------------------------------------------------------------ optimize_max_ent *)
(** A completed run of scipy's minimize: the vector and the loss (minus the entropy). *)
Record run := { run_x : list R; run_fun : xr }.

(** optimization.py 37-43: the starting points. [bounds] has a (lower, upper) pair per free parameter. *)
Definition clip (x : xr) (b : xr * xr) : xr :=
  let y := if xisnan x || xisnan (fst b) then NaN else if xltb x (fst b) then fst b else x in
  if xisnan y || xisnan (snd b) then NaN else if xltb (snd b) y then snd b else y.
Definition scales : list R := [0.75; 0.9; 1.1; 1.25].
Definition starts (current : list xr) (bounds : list (xr * xr)) : list (list xr) :=
  current :: map (fun s => map (fun cb => clip (xmul (fst cb) (Fin s)) (snd cb)) (combine current bounds)) scales.

(** optimization.py 45-56: the try block is around the whole loop, so the first failure ends it. *)
Fixpoint completed {I} (minimize : I -> option run) (inits : list I) : list run :=
  match inits with
  | [] => []
  | i :: r => match minimize i with Some o => o :: completed minimize r | None => [] end
  end.

Definition xabs (a : xr) : xr := match a with Fin r => Fin (Rabs r) | PInf | NInf => PInf | NaN => NaN end.
(** optimization.py 62-63; [constraint] is prob_bound of the vector. *)
Definition feasible (constraint : list R -> xr) (o : run) : bool := xltb (xabs (constraint (run_x o))) (Fin 0.0001).
(** optimization.py 58-67. *)
Definition best_step (constraint : list R -> xr) (st : option run * xr) (o : run) : option run * xr :=
  if feasible constraint o then
    let e := xneg (run_fun o) in if xltb (snd st) e then (Some o, e) else st
  else st.
(** optimization.py 69-70. *)
Definition select (constraint : list R -> xr) (all_results : list run) : res run :=
  match fst (fold_left (best_step constraint) all_results (None, NInf)) with
  | Some o => Ok o
  | None => match all_results with o :: _ => Ok o | [] => Err IndexError end
  end.
(** [install] is the final reconfiguration, lines 71-72. *)
Definition optimize_max_ent {I S} (constraint : list R -> xr) (install : list R -> S) (minimize : I -> option run)
    (inits : list I) : res (run * S) :=
  do o <- select constraint (completed minimize inits); Ok (o, install (run_x o)).

(** optimization.py 14-24: the constraint. [cdf] is the cdf of the instance with the parameters under test;
    [stat] is the difference between the requested and the actual fixed statistic, if any. *)
Definition prob_bound (discrete : bool) (cdf : xr -> xr) (lower upper mass : xr) (stat : option (xr * xr)) : xr :=
  let lower := if discrete then xsub lower (Fin 1) else lower in
  let loss := xsub (xsub (cdf upper) (cdf lower)) mass in
  match stat with
  | None => loss
  | Some (actual, wanted) => xsub loss (xabs (xsub actual wanted))
  end.
(** optimization.py 382-386. *)
Definition computed_mass (discrete : bool) (cdf : xr -> xr) (lower upper : xr) : xr :=
  let lower := if discrete then xsub lower (Fin 1) else lower in xsub (cdf upper) (cdf lower).
Definition relative_error (discrete : bool) (cdf : xr -> xr) (lower upper required : xr) : xr :=
  xabs (xmul (xdiv (xsub (computed_mass discrete cdf lower upper) required) required) (Fin 100)).

(* ------------------------------------------------------------ ranking *)
(** optimization.py 500-514. [D] is the type of distributions; the arrays have [size] slots and are filled in order. *)
Record loss_state (D : Type) := mkLoss { old_loss : xr; best : option D; recorded : list (xr * D) }.
Arguments mkLoss {D}. Arguments old_loss {D}. Arguments best {D}. Arguments recorded {D}.
Definition new_loss {D} : loss_state D := mkLoss PInf None [].
Definition loss_update {D} (st : loss_state D) (loss : xr) (d : D) : loss_state D :=
  let rec := (recorded st ++ [(loss, d)])%list in
  if xltb loss (old_loss st) then mkLoss loss (Some d) rec else mkLoss (old_loss st) (best st) rec.

(** optimization.py 416-450 (fit_to_sample): candidates whose support does not contain the sample get an infinite loss.
    [check] is [_check_endpoints(x_min, x_max, raise_error=False)], [fitted] the loss after fitting. *)
Definition fit_to_sample {D} (check : D -> bool) (fitted : D -> xr) (ds : list D) : loss_state D :=
  fold_left (fun st d => loss_update st (if check d then fitted d else PInf) d) ds new_loss.
(** optimization.py 389-413 (fit_to_epdf): candidates out of support are skipped. *)
Definition fit_to_epdf {D} (check : D -> bool) (fitted : D -> xr) (ds : list D) : option D :=
  best (fold_left (fun st d => if check d then loss_update st (fitted d) d else st) ds new_loss).
(** optimization.py 453-478 (fit_to_quartile), the selection. *)
Definition fit_to_quartile {D} (check : D -> bool) (error : D -> xr) (ds : list D) : option D :=
  snd (fold_left (fun st d => if check d then
                                let e := error d in if xltb e (fst st) then (e, Some d) else st
                              else st) ds (PInf, None)).

(** optimization.py 488-497. k is len(dist.params), n the sample size; Python integers divide to a float and a zero
    divisor raises. *)
Definition get_penalization (n k : Z) : res R :=
  let den := (- k + n - 1)%Z in
  if Z.eqb den 0 then Err ZeroDivisionError else Ok (IZR k + IZR ((k + 1) * k) / IZR den).

(** mle.py 82-99: the order in which candidates are reported, and what is plotted. [argsort] is np.argsort. *)
Definition mle_order {D} (argsort : list xr -> list nat) (st : loss_state D) : list nat :=
  argsort (map fst (recorded st)).

(* ------------------------------------------------------------ discrete mode *)
(** np.argmax of a list of reals: the first position of the largest value; empty raises. *)
Fixpoint argmax_from (l : list R) (i : nat) (bi : nat) (bv : R) : nat :=
  match l with
  | [] => bi
  | v :: r => if Rltb bv v then argmax_from r (S i) i v else argmax_from r (S i) bi bv
  end.
Definition argmax (l : list R) : res nat := match l with [] => Err ValueError | v :: r => Ok (argmax_from r 1 0 v) end.
(** optimization.py 568-584. *)
Definition find_discrete_mode (pmf : Z -> R) (x_vals : list Z) : res Z :=
  do i <- argmax (map pmf x_vals); index x_vals i.

(* ------------------------------------------------------------ Dirichlet *)
(** optimization.py 254-277. [cdf a b x] is the cdf of Beta(a, b). *)
Definition alpha_of (tau : R) (mode : list R) : list R := map (fun m => 1 + tau * m) mode.
Definition prob_approx (cdf : R -> R -> R -> R) (lower_bounds mode : list R) (tau : R) : R * list R :=
  let alpha := alpha_of tau mode in
  let a0 := Rsum alpha in
  let probs := map (fun al => cdf (fst al) (a0 - fst al) (snd al)) (combine alpha lower_bounds) in
  (Rsum probs / INR (List.length probs), alpha).
(** The loop; [None]: still running after [fuel] iterations. *)
Fixpoint dirichlet_loop (fuel : nat) (prob : R -> R * list R) (target : R) (tau : R) : option (R * list R) :=
  let '(p, alpha) := prob tau in
  if Rltb 0.0001 (Rabs (p - target))
  then match fuel with
       | O => None
       | S f => dirichlet_loop f prob target (if Rltb p target then tau - 0.5 * tau else tau + 0.5 * tau)
       end
  else Some (p, alpha).
Definition optimize_dirichlet_mode (fuel : nat) (cdf : R -> R -> R -> R) (lower_bounds mode : list R) (target : R) :=
  dirichlet_loop fuel (prob_approx cdf lower_bounds mode) target 1.

(** multidimensional/dirichlet_mode.py 44-84 without the plot. The result is the parameter of the Dirichlet and whether
    the warning about the mode is issued. *)
Definition clip01 (x : R) : R := Rmin (Rmax x 0) 1.
Definition dirichlet_mode (fuel : nat) (cdf : R -> R -> R -> R) (mode : list R) (mass bound : R)
    : res (option (list R * bool)) :=
  if negb (Rltb 0 mass && Rleb mass 1) then Err ValueError else
  if negb (forallb (fun m => Rltb 0 m) mode) then Err ValueError else
  match mode with
  | [] => Ok (Some ([], false)) (* the mean of no values is nan, the while test is false, and nothing is compared *)
  | _ =>
  let mode := if Rltb (Rabs (Rsum mode - 1)) 0.0001 then mode else map (fun m => m / Rsum mode) mode in
  let lower_bounds := map (fun m => clip01 (m - bound)) mode in
  let target := (1 - mass) / 2 in
  match optimize_dirichlet_mode fuel cdf lower_bounds mode target with
  | None => Ok None
  | Some (_, alpha) =>
      let calc := map (fun a => (a - 1) / (Rsum alpha - INR (List.length alpha))) alpha in
      let warn := existsb (fun mc => Rltb 0.01 (fst mc - snd mc)) (combine mode calc) in
      Ok (Some (alpha, warn))
  end
  end.
(** continuous_multivariate.py 89-94, Dirichlet.mode. *)
Definition dirichlet_mode_of (alpha : list R) : option (list R) :=
  if forallb (fun a => Rltb 1 a) alpha
  then Some (map (fun a => (a - 1) / (Rsum alpha - INR (List.length alpha))) alpha)
  else None.
