(** Model of the code that turns samples of model variables back into prior distributions, and of the projection that
    produces the samples: preliz/ppls/agnostic.py (posterior_to_prior), preliz/ppls/pymc_io.py (extract_preliz_distributions,
    set_families, back_fitting_pymc, compile_mllk), preliz/predictive/ppe.py, preliz/internal/optimization.py
    (optimize_pymc_model, get_weighted_rvs). Distribution objects are mutable and may be shared, so they live in a heap. *)
From Coq Require Import List Bool String Arith ZArith.
From Verif Require Import Base XR.
Import ListNotations.

(* ------------------------------------------------------------ objects and references *)
(** Python objects: [cell h r] is the distribution behind reference [r]; references below [next h] exist. *)
Record heap (Obj : Type) := mkHeap { cell : nat -> Obj; next : nat }.
Arguments mkHeap {Obj}. Arguments cell {Obj}. Arguments next {Obj}.
Definition put {Obj} (h : heap Obj) (r : nat) (o : Obj) : heap Obj :=
  mkHeap (fun q => if Nat.eqb q r then o else cell h q) (next h).
Definition alloc {Obj} (h : heap Obj) (o : Obj) : nat * heap Obj :=
  (next h, mkHeap (fun q => if Nat.eqb q (next h) then o else cell h q) (S (next h))).
Fixpoint alloc_all {Obj} (h : heap Obj) (os : list Obj) : list nat * heap Obj :=
  match os with
  | [] => ([], h)
  | o :: r => let '(a, h1) := alloc h o in let '(l, h2) := alloc_all h1 r in (a :: l, h2)
  end.

(** A candidate passed to mle: an instance, or (by mistake) a class. *)
Inductive candidate := Inst (r : nat) | Class (name : string).

(** The argument new_families of posterior_to_prior and ppe; [Other] is any other type, for instance a tuple. *)
Inductive families := NoFamilies | Auto | FList (l : list nat) | FDict (l : list (string * list nat)) | Other.
Fixpoint dict_get (l : list (string * list nat)) (k : string) : list nat :=
  match l with
  | [] => []
  | (k', v) :: r => if String.eqb k' k then v else dict_get r k
  end.

Section Back.
Variables (Obj Sample : Type).
Variable cls : Obj -> string.                           (* __class__.__name__ *)
Variable default : string -> Obj.                       (* the class called without arguments *)
(** One pass of the loop of fit_to_sample, optimization.py 419-447: bounds, endpoints, _fit_mle, loss. An object whose
    support does not contain the sample keeps its parameters and gets an infinite loss. *)
Variable fit : Obj -> Sample -> res (Obj * xr).
Variable argsort : list xr -> list nat.                 (* np.argsort *)

(** mle.py 70-74: every candidate is checked before any is fitted; distribution_helper.py 61-65. The class of a class is
    called "type". *)
Definition candidate_class (h : heap Obj) (c : candidate) : string :=
  match c with Inst r => cls (cell h r) | Class _ => "type"%string end.
Fixpoint all_valid (h : heap Obj) (cs : list candidate) : res unit :=
  match cs with
  | [] => Ok tt
  | c :: r => if String.eqb (candidate_class h c) "Categorical" then Err ValueError else all_valid h r
  end.
(** optimization.py 416-448: candidates are updated in place, in order. On a class, _check_endpoints is called with the
    endpoints in the place of self and one argument missing. *)
Fixpoint fit_loop (h : heap Obj) (cs : list candidate) (s : Sample) : heap Obj * res (list xr) :=
  match cs with
  | [] => (h, Ok [])
  | Inst r :: rest =>
      match fit (cell h r) s with
      | Err e => (h, Err e)
      | Ok (o, loss) =>
          match fit_loop (put h r o) rest s with
          | (h', Ok l) => (h', Ok (loss :: l))
          | (h', Err e) => (h', Err e)
          end
      end
  | Class _ :: _ => (h, Err TypeError)
  end.
(** mle.py 70-84 with plot=False: the positions of the candidates from best to worst. *)
Definition mle (h : heap Obj) (cs : list candidate) (s : Sample) : heap Obj * res (list nat) :=
  match all_valid h cs with
  | Err e => (h, Err e)
  | Ok _ => match fit_loop h cs s with
            | (h', Ok l) => (h', Ok (argsort l))
            | (h', Err e) => (h', Err e)
            end
  end.
(** [dists[idx[0]]]. *)
Definition pick (cs : list candidate) (idx : list nat) : res candidate :=
  match idx with
  | [] => Err IndexError
  | i :: _ => match nth_error cs i with Some c => Ok c | None => Err IndexError end
  end.

Definition auto_names : list string := ["Normal"; "HalfNormal"; "Gamma"]%string.
(** agnostic.py 93-101: the candidates for one variable. "auto" builds three new instances and drops those of the class of
    the prior. *)
Definition candidates_idata (h : heap Obj) (var : string) (d : nat) (nf : families) : heap Obj * list candidate :=
  match nf with
  | NoFamilies | Other => (h, [Inst d])
  | Auto => let '(alt, h1) := alloc_all h (map default auto_names) in
            (h1, Inst d :: map Inst (filter (fun a => negb (String.eqb (cls (cell h1 d)) (cls (cell h1 a)))) alt))
  | FList l => (h, Inst d :: map Inst l)
  | FDict t => (h, Inst d :: map Inst (dict_get t var))
  end.
(** pymc_io.py 53-67. "auto" takes the classes themselves, and compares the class name with that of a class. *)
Definition set_families (h : heap Obj) (d : nat) (var : string) (nf : families) : list candidate :=
  match nf with
  | NoFamilies | Other => [Inst d]
  | Auto => Inst d :: map Class (filter (fun _ => negb (String.eqb (cls (cell h d)) "type")) auto_names)
  | FList l => Inst d :: map Inst l
  | FDict t => Inst d :: map Inst (dict_get t var)
  end.

(** agnostic.py 83-105. [model_info] holds the name of each variable with its prior, [posterior] the samples. The result
    maps names to references: what a reference holds is read when the new model is written, after the loop. *)
Fixpoint back_fitting_idata (posterior : string -> res Sample) (nf : families) (model_info : list (string * nat))
    (h : heap Obj) : heap Obj * res (list (string * candidate)) :=
  match model_info with
  | [] => (h, Ok [])
  | (var, d) :: rest =>
      let '(h1, cs) := candidates_idata h var d nf in
      match posterior var with
      | Err e => (h1, Err e)
      | Ok s =>
          match mle h1 cs s with
          | (h2, Err e) => (h2, Err e)
          | (h2, Ok idx) =>
              match (match nf with NoFamilies => Ok (Inst d) | _ => pick cs idx end) with
              | Err e => (h2, Err e)
              | Ok c => match back_fitting_idata posterior nf rest h2 with
                        | (h3, Ok l) => (h3, Ok ((var, c) :: l))
                        | (h3, Err e) => (h3, Err e)
                        end
              end
          end
      end
  end.

(* ------------------------------------------------------------ back fitting in ppe *)
Variable Param : Type.
Variable params : Obj -> list Param.
(** _parametrization with one array per parameter. *)
Variable install : Obj -> list (list Param) -> res Obj.
Variable fit_mle : Obj -> Sample -> res Obj.             (* _fit_mle *)

(** [zip( *params )]: stops at the shortest row. *)
Fixpoint zip2 (xs : list Param) (rows : list (list Param)) : list (list Param) :=
  match xs, rows with
  | x :: xr, r :: rr => (x :: r) :: zip2 xr rr
  | _, _ => []
  end.
Fixpoint zip_star (rows : list (list Param)) : list (list Param) :=
  match rows with
  | [] => []
  | [r] => map (fun x => [x]) r
  | r :: rest => zip2 r (zip_star rest)
  end.

(** What the projection holds for a variable: one sample, or the columns [[:, i]]; a column that does not exist raises. *)
Record projected := mkProj { p_all : Sample; p_column : nat -> res Sample }.

(** pymc_io.py 34: does [prior[rv_name][:, i]] exist, when the projection of the variable was reshaped to
    (iterations, *shape) with more than one iteration, and squeezed (pymc_io.py 175). *)
Definition column_status (shape : list nat) (i : nat) : res unit :=
  match filter (fun n => negb (Nat.eqb n 1)) shape with
  | a :: _ => if Nat.ltb i a then Ok tt else Err IndexError
  | [] => Err IndexError
  end.

(** pymc_io.py 33-38: the same object is fitted to one column after the other. *)
Fixpoint fit_columns (h : heap Obj) (d : nat) (col : nat -> res Sample) (is_ : list nat) : heap Obj * res (list (list Param)) :=
  match is_ with
  | [] => (h, Ok [])
  | i :: rest =>
      match col i with
      | Err e => (h, Err e)
      | Ok s => match fit_mle (cell h d) s with
                | Err e => (h, Err e)
                | Ok o => let h1 := put h d o in
                          match fit_columns h1 d col rest with
                          | (h2, Ok l) => (h2, Ok (params o :: l))
                          | (h2, Err e) => (h2, Err e)
                          end
                end
      end
  end.
(** pymc_io.py 31-48, one variable of [size] elements. *)
Definition back_fit_variable (h : heap Obj) (var : string) (d : nat) (size : nat) (x : projected) (nf : families)
    : heap Obj * res candidate :=
  if Nat.ltb 1 size then
    match fit_columns h d (p_column x) (seq 0 size) with
    | (h1, Err e) => (h1, Err e)
    | (h1, Ok rows) => match install (cell h1 d) (zip_star rows) with
                       | Err e => (h1, Err e)
                       | Ok o => (put h1 d o, Ok (Inst d))
                       end
    end
  else
    let cs := set_families h d var nf in
    match mle h cs (p_all x) with
    | (h1, Err e) => (h1, Err e)
    | (h1, Ok idx) => (h1, pick cs idx)
    end.
(** pymc_io.py 21-50. [vars] holds for each variable its name, its prior and its size. *)
Fixpoint back_fitting_pymc (prior : string -> res projected) (nf : families) (vars : list (string * nat * nat)) (h : heap Obj)
    : heap Obj * res (list (string * candidate)) :=
  match vars with
  | [] => (h, Ok [])
  | (var, d, size) :: rest =>
      match prior var with
      | Err e => (h, Err e)
      | Ok x => match back_fit_variable h var d size x nf with
                | (h1, Err e) => (h1, Err e)
                | (h1, Ok c) => match back_fitting_pymc prior nf rest h1 with
                                | (h2, Ok l) => (h2, Ok ((var, c) :: l))
                                | (h2, Err e) => (h2, Err e)
                                end
                end
      end
  end.

(* ------------------------------------------------------------ extraction of the priors *)
(** pymc_io.py 97-132: one instance of every univariate class, under its lower-case name, and one copy of it per free
    variable. [free_rvs] holds the name of each variable and of its distribution as PyMC writes it. [copy] is shallow, but
    no object reachable from an uninitialised distribution is changed in place by a fit. *)
Fixpoint lookup_ref (l : list (string * nat)) (k : string) : option nat :=
  match l with
  | [] => None
  | (k', v) :: r => match lookup_ref r k with Some v' => Some v' | None => if String.eqb k' k then Some v else None end
  end.
Fixpoint extract_loop (table : list (string * nat)) (free_rvs : list (string * string)) (h : heap Obj)
    : heap Obj * res (list (string * nat)) :=
  match free_rvs with
  | [] => (h, Ok [])
  | (var, name) :: rest =>
      match lookup_ref table name with
      | None => (h, Err KeyError)
      | Some r => let '(d, h1) := alloc h (cell h r) in
                  match extract_loop table rest h1 with
                  | (h2, Ok l) => (h2, Ok ((var, d) :: l))
                  | (h2, Err e) => (h2, Err e)
                  end
      end
  end.
Definition excluded : list string := ["Truncated"; "Censored"; "Hurdle"; "Mixture"]%string.
Definition extract_preliz_distributions (lower : string -> string) (all : list string) (free_rvs : list (string * string))
    (h : heap Obj) : heap Obj * res (list (string * nat)) :=
  let names := filter (fun n => negb (existsb (String.eqb n) excluded)) all in
  let '(refs, h1) := alloc_all h (map default names) in
  extract_loop (combine (map lower names) refs) free_rvs h1.

(** agnostic.py 70-73, the part of posterior_to_prior that makes the new priors. *)
Definition posterior_fits (lower : string -> string) (all : list string) (free_rvs : list (string * string))
    (posterior : string -> res Sample) (nf : families) (h : heap Obj) : heap Obj * res (list (string * candidate)) :=
  match extract_preliz_distributions lower all free_rvs h with
  | (h1, Err e) => (h1, Err e)
  | (h1, Ok mi) => back_fitting_idata posterior nf mi h1
  end.
End Back.
Arguments mkProj {Sample}. Arguments p_all {Sample}. Arguments p_column {Sample}.

(* ------------------------------------------------------------ the projection *)
Section Project.
Variables (Vec Sample Rng : Type).
(** A target: one distribution, or a list of distributions with weights. [rvs_seed d n seed] is [d.rvs(n, seed)];
    [rvs_rng] draws from a generator and returns the new state of the generator. *)
Variable Dist : Type.
Variable rvs_seed : Dist -> nat -> nat -> Sample.
Variable rvs_weighted : list (Dist * xr) -> nat -> Rng -> res (Sample * Rng).
Variable minimise : Vec -> Sample -> res Vec.            (* scipy minimize: result.x from an initial guess *)
Inductive target := One (d : Dist) | Many (l : list (Dist * xr)).

(** optimization.py 355-379: iterations [idx ..] in order; the first result is not kept. *)
Fixpoint project_loop (t : target) (num_draws : nat) (idxs : list nat) (guess : Vec) (g : Rng) : res (list Vec) :=
  match idxs with
  | [] => Ok []
  | idx :: rest =>
      do so <- match t with
               | Many l => rvs_weighted l num_draws g
               | One d => Ok (rvs_seed d num_draws idx, g)
               end;
      let '(obs, g') := so in
      do x <- minimise guess obs;
      do tl <- project_loop t num_draws rest x g';
      Ok (if Nat.eqb idx 0 then tl else x :: tl)
  end.
Definition optimize_pymc_model (t : target) (num_draws opt_iterations : nat) (guess : Vec) (g : Rng) : res (list Vec) :=
  project_loop t num_draws (seq 0 (opt_iterations + 1)) guess g.
End Project.
Arguments One {Dist}. Arguments Many {Dist}.

(** optimization.py 628-633: one draw of every target per position, and for each position the target that rng chose.
    np.choose raises if a position asks for a target that does not exist, and takes at most [maxargs] - 1 targets (31 or 63,
    depending on the numpy version). *)
Section Weighted.
Variables (Dist A Rng : Type).
Variable maxargs : nat.
Variable choice : nat -> nat -> list xr -> Rng -> res (list nat * Rng).     (* rng.choice(k, size, p) *)
Variable draw : Dist -> nat -> Rng -> list A * Rng.                        (* target.rvs(size, random_state=rng) *)
Fixpoint draw_all (ts : list Dist) (size : nat) (g : Rng) : list (list A) * Rng :=
  match ts with
  | [] => ([], g)
  | t :: r => let '(s, g1) := draw t size g in let '(l, g2) := draw_all r size g1 in (s :: l, g2)
  end.
Fixpoint choose_loop (choices : list nat) (samples : list (list A)) (j : nat) : res (list A) :=
  match choices with
  | [] => Ok []
  | c :: r => match nth_error samples c with
              | None => Err ValueError
              | Some s => match nth_error s j with
                          | None => Err ValueError
                          | Some a => do l <- choose_loop r samples (S j); Ok (a :: l)
                          end
              end
  end.
Definition get_weighted_rvs (target : list (Dist * xr)) (size : nat) (g : Rng) : res (list A * Rng) :=
  let targets := map fst target in
  let weights := map snd target in
  do cg <- choice (List.length targets) size weights g;
  let '(choices, g1) := cg in
  let '(samples, g2) := draw_all targets size g1 in
  if Nat.leb maxargs (List.length samples) then Err ValueError else
  do l <- choose_loop choices samples 0;
  Ok (l, g2).
End Weighted.

(* ------------------------------------------------------------ ppe and the user's model *)
Section Ppe.
Variables (Value Vec Prior Text : Type).
(** The part of a PyMC model that ppe writes to: rvs_to_values, here by the name of the variable. *)
Definition rvs_to_values := string -> Value.
Definition assign (m : rvs_to_values) (k : string) (v : Value) : rvs_to_values := fun q => if String.eqb q k then v else m q.
(** The library calls, in the order of ppe.py 72-99; each may raise. [compile] is what compile_mllk does after replacing
    the value of the observed variable (pymc_io.py 76-92); [engine_ok] says that the engine is "pymc" or "bambi". *)
Variable observed : list string.
Variable fresh : string -> Value.                                       (* obs_rvs.type() *)
Variables (extract info guess : rvs_to_values -> res unit).
Variable compile : rvs_to_values -> res unit.
Variable project : rvs_to_values -> res Vec.
Variable unravel : Vec -> res Prior.
Variable backfit : Prior -> res Prior.
Variable write : Prior -> res Text.
Variable engine_ok : bool.

Definition ppe (m : rvs_to_values) : rvs_to_values * res Text :=
  match (do _ <- extract m; do _ <- info m; guess m) with
  | Err e => (m, Err e)
  | Ok _ =>
      (* compile_mllk, pymc_io.py 76-79 *)
      match observed with
      | [] => (m, Err IndexError)
      | obs :: _ =>
          let old := m obs in
          let m1 := assign m obs (fresh obs) in
          match compile m1 with
          | Err e => (m1, Err e)
          | Ok _ =>
              match project m1 with
              | Err e => (m1, Err e)
              | Ok v =>
                  let m2 := assign m1 obs old in
                  (m2, do u <- unravel v; do b <- backfit u;
                       if engine_ok then write b else Err RuntimeError) (* UnboundLocalError: new_priors *)
              end
          end
      end
  end.
End Ppe.
Arguments assign {Value}.

(** agnostic.py 120-125: [basic_RVs] and [formula] say whether the attribute exists and is true. *)
Definition get_engine (basic_rvs formula : bool) : string :=
  (if basic_rvs then "pymc" else if formula then "bambi" else "preliz")%string.

(** agnostic.py 294-301: [level] is the logger's own level (None is NOTSET), [parent] the effective level of its parent.
    The body returns or raises. *)
Definition effective (level : option nat) (parent : nat) : nat := match level with Some l => l | None => parent end.
Definition disable_pymc_sampling_logs {A} (level : option nat) (parent : nat) (body : option nat -> res A) : option nat * res A :=
  let saved := effective level parent in
  let r := body (Some 40%nat) in
  (Some saved, r).
