(** Model of the PyMC and Bambi text output and of the projection bookkeeping: preliz/ppls/pymc_io.py 167-219 and
    preliz/ppls/bambi_io.py 19-55. Text is as in TextModel. A variable's entry of var_info is its shape, size,
    transformation and the indices of its non-constant parents (pymc_io.py 135-164). *)
From Coq Require Import List Bool Ascii String Arith.
From Verif Require Import Base TextModel.
Import ListNotations.

(* ---------------- unravel_projection, pymc_io.py 167-178 ---------------- *)
Section Unravel.
Context {A : Type}.
(** A two-dimensional array is the list of its rows; an n-dimensional one its shape and its elements in C order. *)
Record nd := mkNd { nd_shape : list nat; nd_data : list A }.
Record vinfo := mkVinfo { v_shape : list nat; v_size : nat; v_transf : option (list (list A) -> list (list A)); v_parents : list nat }.
Definition prod (l : list nat) : nat := fold_right Nat.mul 1%nat l.
(** vector.reshape(iterations, *shape).squeeze() *)
Definition reshape (rows : list (list A)) (shape : list nat) : res nd :=
  let data := List.concat rows in
  if Nat.eqb (List.length data) (prod shape) then Ok (mkNd (filter (fun d => negb (Nat.eqb d 1)) shape) data) else Err ValueError.
Definition slice (from len : nat) (row : list A) : list A := firstn len (skipn from row).
Fixpoint unravel_loop (prior : list (list A)) (var_info : list (text * vinfo)) (iterations size : nat) : res (list (text * nd)) :=
  match var_info with
  | [] => Ok []
  | (key, v) :: r =>
      let vector := map (slice size (v_size v)) prior in
      let vector := match v_transf v with Some f => f vector | None => vector end in
      do x <- reshape vector (iterations :: v_shape v);
      do rest <- unravel_loop prior r iterations (size + v_size v);
      Ok ((key, x) :: rest)
  end.
Definition unravel_projection (prior : list (list A)) (var_info : list (text * vinfo)) (iterations : nat) : res (list (text * nd)) :=
  unravel_loop prior var_info iterations 0.
End Unravel.
Arguments nd : clear implicits.
Arguments vinfo : clear implicits.

(* ---------------- write_pymc_string, write_bambi_string ---------------- *)
Section Write.
Context {D : Type}.
Variable repr : D -> text.
(** copy(new_priors[nkey])._fit_moments(np.mean(value.mean()), np.mean(value.std())): the parent fitted to the moments of
    the child; raises what _fit_moments raises. *)
Variable refit : D -> D -> res D.
Variable show : nat -> text.
Definition txt (s : string) : text := list_ascii_of_string s.
Definition quote : text := ["034"%char].
Definition nl : text := [c_newline].
(** Assignment to a list position: IndexError past the end. *)
Fixpoint list_set (l : list text) (i : nat) (x : text) : res (list text) :=
  match l, i with
  | [], _ => Err IndexError
  | _ :: r, O => Ok (x :: r)
  | y :: r, S i => do r <- list_set r i x; Ok (y :: r)
  end.
(** dist_name, dist_params = repr(d).split("("): ValueError unless there are two pieces. *)
Definition name_params (d : D) : res (text * text) :=
  match split_on c_open (repr d) with [n; p] => Ok (n, p) | _ => Err ValueError end.
(** pymc_io.py 199-207, 210-217. *)
Definition pymc_line (key : text) (d : D) (size : nat) : res text :=
  do np <- name_params d;
  let '(n, p) := np in
  Ok (if Nat.ltb 1 size
      then (txt "    " ++ key ++ txt " = pm." ++ n ++ txt "(" ++ quote ++ key ++ quote ++ txt ", " ++ hd [] (split_on c_close p) ++ txt ", shape=" ++ show size ++ txt ")" ++ nl)%list
      else (txt "    " ++ key ++ txt " = pm." ++ n ++ txt "(" ++ quote ++ key ++ quote ++ txt ", " ++ p ++ nl)%list).
(** str.rstrip(")") *)
Fixpoint drop_close (s : text) : text := match s with c :: r => if Ascii.eqb c c_close then drop_close r else s | [] => [] end.
Definition rstrip_close (s : text) : text := rev (drop_close (rev s)).
(** bambi_io.py 36-42 (parent of a hierarchical variable) and 44-53 (others). *)
Definition bambi_line (stripped : bool) (key : text) (d : D) (size : nat) : res text :=
  do np <- name_params d;
  let '(n, p) := np in
  let p := if stripped then rstrip_close p else p in
  Ok (quote ++ key ++ quote ++ txt " : bmb.Prior(" ++ quote ++ n ++ quote ++ txt ", " ++ p ++
      (if Nat.ltb 1 size then txt ", shape=" ++ show size else []) ++ txt ")," ++ nl)%list.

(** One entry of new_priors with its part of var_info: name, fitted distribution, size, indices of the parents. *)
Record prior := mkPrior { p_key : text; p_dist : D; p_size : nat; p_parents : list nat }.
Section Loop.
Variables own_line parent_line : text -> D -> nat -> res text.
Variable all : list prior.
(** for i in idxs: variables[i] = line of names[i], fitted to this variable *)
Fixpoint parent_loop (value : D) (idxs : list nat) (variables : list text) : res (list text) :=
  match idxs with
  | [] => Ok variables
  | i :: r =>
      match nth_error all i with
      | None => Err IndexError
      | Some p => do cp <- refit (p_dist p) value;
                  do line <- parent_line (p_key p) cp (p_size p);
                  do variables <- list_set variables i line;
                  parent_loop value r variables
      end
  end.
Fixpoint write_loop (items : list prior) (variables : list text) : res (list text) :=
  match items with
  | [] => Ok variables
  | p :: r =>
      match p_parents p with
      | [] => do line <- own_line (p_key p) (p_dist p) (p_size p); write_loop r (variables ++ [line])
      | idxs => do variables <- parent_loop (p_dist p) idxs variables; write_loop r variables
      end
  end.
End Loop.
Definition write_pymc_string (new_priors : list prior) : res text :=
  do lines <- write_loop pymc_line pymc_line new_priors new_priors [];
  Ok (txt "with pm.Model() as model:" ++ nl ++ List.concat lines)%list.
Definition write_bambi_string (new_priors : list prior) : res text :=
  do lines <- write_loop (bambi_line true) (bambi_line false) new_priors new_priors [];
  Ok (txt "{" ++ nl ++ List.concat lines)%list.
End Write.
Arguments prior : clear implicits.
