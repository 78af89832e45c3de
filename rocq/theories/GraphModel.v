(** Model of how a PyMC model is read: preliz/ppls/pymc_io.py 135-164 (retrieve_variable_info) and 222-230
    (non_constant_parents), preliz/ppls/bambi_io.py 12-16 (get_pymc_model), and of how what is read reaches the text that is
    written (agnostic.py 64-80). What belongs to PyMC is a parameter: the graph, the names of the value variables and the two
    functions that recognise and undo the naming of transformed ones. *)
From Coq Require Import List Bool Ascii String Arith.
From Verif Require Import Base TextModel PplModel.
Import ListNotations.

Section Graph.
Context {A : Type}.
(** A variable of the graph: a TensorConstant, or any other with its identity and the inputs of its owner (none for shared
    variables, data and random generators). A random variable has the generator and the size as its first inputs. *)
Inductive node := Constant | Var (id : nat) (inputs : list node).
(** A free random variable: its identity, its name, the name of its value variable, the inputs of its owner, the shape of
    its initial value and, if the value is transformed, the way back. *)
Record rv := mkRv { rv_id : nat; rv_name : text; rv_value : text; rv_inputs : list node; rv_shape : list nat;
                    rv_backward : option (list (list A) -> list (list A)) }.
(** free_RVs, in the order of value_vars, and the size of each observed variable. *)
Record pymc_model := mkModel { free_RVs : list rv; observed : list nat }.
(** pytensor's ancestors([variable]), by identity: the variable and all it is computed from. *)
Fixpoint ancestors (n : node) : list nat :=
  match n with Constant => [] | Var i l => i :: flat_map ancestors l end.
Definition mem (i : nat) (l : list nat) : bool := existsb (Nat.eqb i) l.
(** pymc_io.py 227-229 *)
Fixpoint add_free (anc : list nat) (free : list rv) (parents : list nat) : list nat :=
  match free with
  | [] => parents
  | v :: r => add_free anc r (if mem (rv_id v) anc && negb (mem (rv_id v) parents) then (parents ++ [rv_id v])%list else parents)
  end.
(** pymc_io.py 225-229 *)
Fixpoint parents_loop (variables : list node) (free : list rv) (parents : list nat) : list nat :=
  match variables with
  | [] => parents
  | Constant :: r => parents_loop r free parents
  | (Var _ _ as x) :: r => parents_loop r free (add_free (ancestors x) free parents)
  end.
(** pymc_io.py 222-230: [inputs[2:]] are the parameters of the distribution. *)
Definition non_constant_parents (v : rv) (m : pymc_model) : list nat := parents_loop (skipn 2 (rv_inputs v)) (free_RVs m) [].

(** model.free_RVs.index(var_) *)
Fixpoint index_of (free : list rv) (i : nat) : res nat :=
  match free with
  | [] => Err ValueError
  | v :: r => if Nat.eqb (rv_id v) i then Ok O else do n <- index_of r i; Ok (S n)
  end.
Fixpoint indices_of (free : list rv) (l : list nat) : res (list nat) :=
  match l with
  | [] => Ok []
  | i :: r => do n <- index_of free i; do ns <- indices_of free r; Ok (n :: ns)
  end.

Variable is_transformed_name : text -> bool.
Variable get_untransformed_name : text -> text.
(** pymc_io.py 140-159, one variable. [None.backward] is an AttributeError. *)
Definition variable_info (m : pymc_model) (v : rv) : res (text * vinfo A) :=
  do idx <- indices_of (free_RVs m) (non_constant_parents v m);
  if is_transformed_name (rv_value v)
  then match rv_backward v with
       | None => Err AttributeError
       | Some f => Ok (get_untransformed_name (rv_value v), mkVinfo (rv_shape v) (prod (rv_shape v)) (Some f) idx)
       end
  else Ok (rv_value v, mkVinfo (rv_shape v) (prod (rv_shape v)) None idx).
(** pymc_io.py 139-159 *)
Fixpoint info_loop (m : pymc_model) (vars : list rv) (var_info : list (text * vinfo A)) : res (list (text * vinfo A)) :=
  match vars with
  | [] => Ok var_info
  | v :: r => do e <- variable_info m v; info_loop m r (dict_put var_info (fst e) (snd e))
  end.
(** pymc_io.py 135-164 *)
Definition retrieve_variable_info (m : pymc_model) : res (list (text * vinfo A) * nat) :=
  do info <- info_loop m (free_RVs m) [];
  match observed m with [] => Err IndexError | n :: _ => Ok (info, n) end.

(** The loop of write_pymc_string looks up [var_info[key]] for every new prior (pymc_io.py 190-191): what PplModel takes as
    one list. *)
Fixpoint with_info {D} (new_priors : list (text * D)) (var_info : list (text * vinfo A)) : res (list (prior D)) :=
  match new_priors with
  | [] => Ok []
  | (key, d) :: r =>
      match dict_find var_info key with
      | None => Err KeyError
      | Some e => do ps <- with_info r var_info; Ok (mkPrior key d (v_size e) (v_parents e) :: ps)
      end
  end.
(** agnostic.py 64-80 for a PyMC model, from the new priors on. [new_priors] has the names of the free variables in order
    (BackModel). *)
Definition new_model {D} (repr : D -> text) (refit : D -> D -> res D) (show : nat -> text) (m : pymc_model)
    (new_priors : list (text * D)) : res text :=
  do info <- retrieve_variable_info m;
  do ps <- with_info new_priors (fst info);
  write_pymc_string repr refit show ps.
End Graph.
Arguments rv : clear implicits.
Arguments pymc_model : clear implicits.

(** bambi_io.py 12-16: a Bambi model is built unless it is built already; [build] is the user's model.build(). *)
Definition get_pymc_model {M P} (built : M -> bool) (build : M -> res M) (backend : M -> P) (m : M) : res P :=
  do m <- (if built m then Ok m else build m); Ok (backend m).
