(** Model of the functions that read the source of a model function: preliz/ppls/agnostic.py 108-223, preliz/ppls/bambi_io.py 58-129,
    preliz/internal/plot_helper.py 391-421 (the limits of get_textboxes), preliz/internal/predictive_helper.py 33-37. *)
From Coq Require Import List Bool Ascii String Arith ZArith Reals.
From Verif Require Import Base XR FamModel BoundModel TextModel PplModel CatModel ReModel.
Import ListNotations.
Open Scope list_scope.

(** bambi_io.py 115-117: the names joined by "|". An alternative tries them in this order. *)
Definition all_names : list text := map (fun c => txt (class_name c)) all_classes.
Definition dist_alt : re := alt (map lit all_names).
Definition not_paren (c : ascii) : bool := negb (Ascii.eqb c c_open || Ascii.eqb c c_close).
Definition open_ : re := Chr (Ascii.eqb c_open).
Definition close_ : re := Chr (Ascii.eqb c_close).
(** agnostic.py 205 (and bambi_io.py 110): #.*$|^#.*$ with re.MULTILINE; the second alternative never adds a match. *)
Definition comment : re := Cat (Chr (Ascii.eqb "#"%char)) (Cat (Many true dot) Eol).
(** agnostic.py 208. Group 1 is a shortest run of characters, one of the names (group 2) and a shortest run of characters; then an opening
    parenthesis, group 3 (text without parentheses and pairs of parentheses without parentheses inside) and a closing parenthesis. *)
Definition call_args : re := Cat (any not_paren) (Many true (Cat open_ (Cat (any not_paren) (Cat close_ (any not_paren))))).
Definition dist_call : re :=
  Cat (Group 1 (Cat (Many false dot) (Cat (Group 2 dist_alt) (Many false dot)))) (Cat open_ (Cat (Group 3 call_args) close_)).
(** agnostic.py 210 and bambi_io.py 111: the pattern of Prior(name, key=value, ...), whose group 1 is the name and group 2 the arguments. *)
Definition opt (a : re) : re := Or a Nothing.
Definition prior_call : re :=
  Cat (any is_space) (Cat (opt (Cat (some is_word) (lit (txt ".")))) (Cat (lit (txt "Prior(" ++ quote))
    (Cat (Group 1 dist_alt) (Cat (lit (quote ++ txt ",")) (Cat (any is_space)
      (Cat (Group 2 (Many true (Cat (some is_word) (Cat (lit (txt "=")) (Cat (some is_word) (opt (Cat (opt (lit (txt ","))) (any is_space))))))))
        (Cat (any is_space) close_))))))).
Inductive engine := EPreliz | EPymc | EBambi.
(** agnostic.py 214-223. *)
Definition match_preliz_dist (source : text) (e : engine) : list found :=
  finditer (match e with EBambi => prior_call | _ => dist_call end) (erase comment source).

(** bambi_io.py 110-112: the word return, a space, and words separated by commas (group 1); no match: None.group raises AttributeError. *)
Definition return_re : re :=
  Cat (lit (txt "return ")) (Group 1 (Cat (some is_word) (Many true (Cat (any is_space) (Cat (lit (txt ",")) (Cat (any is_space) (some is_word))))))).
Definition match_return_variables (source : text) : res (list text) :=
  match search return_re source with
  | Some m => Ok (map strip (split_on c_comma (group m 1)))
  | None => Err AttributeError
  end.
(** getattr(preliz.distributions, name) for the classes. *)
Definition class_of (name : text) : res cls :=
  match find (fun c => text_eqb (txt (class_name c)) name) all_classes with Some c => Ok c | None => Err AttributeError end.
(** cls(): the modifiers need arguments (censored.py 67, hurdle.py 47, mixture.py 38, truncated.py 67). *)
Definition make_default (c : cls) : res cls :=
  match c with CMixture | CTruncated | CCensored | CHurdle => Err TypeError | _ => Ok c end.
(** bambi_io.py 120-129. *)
Fixpoint dict_loop (ms : list found) (obs : text) (model : list (text * cls)) : res (list (text * cls)) :=
  match ms with
  | [] => Ok model
  | m :: r =>
      let var := strip (hd [] (split_on c_equal (whole m))) in
      if text_eqb var obs then dict_loop r obs model
      else do c <- class_of (group m 2); do d <- make_default c; dict_loop r obs (dict_put model var d)
  end.
Definition dict_model (ms : list found) (variables : list text) : res (list (text * cls)) :=
  match rev variables with [] => Err IndexError | obs :: _ => dict_loop ms obs [] end.
(** agnostic.py 202-211. *)
Definition from_preliz (source : text) : res (list text * list (text * cls)) :=
  do variables <- match_return_variables source;
  do model <- dict_model (match_preliz_dist source EPreliz) variables;
  Ok (variables, model).
(** bambi_io.py 58-99, the part that reads the source: the names returned and the priors. [build] inserts the lines that draw the
    samples. The new source is also executed (not modelled). *)
Definition from_bambi_model (build : text -> text) (source : text) : res (list text * list (text * cls)) :=
  do variables <- match_return_variables source;
  do model <- dict_model (match_preliz_dist (build source) EBambi) variables;
  Ok (variables, model).

(* ------------------------------------------------------------ the predictive explorer *)
(** str.isidentifier for ASCII. *)
Definition is_digit (c : ascii) : bool := ((48 <=? code c) && (code c <=? 57))%nat.
Definition isidentifier (t : text) : bool :=
  match t with [] => false | c :: _ => negb (is_digit c) && forallb is_word t end.
(** agnostic.py 131-132: \ba\b|\bb\b|..., and \b\b for a function without parameters. *)
Definition words_re (names : list text) : re :=
  match names with [] => Cat Boundary Boundary | _ => alt (map (fun n => Cat Boundary (Cat (lit n) Boundary)) names) end.
(** The text after the first pair of stars, and the text before it. *)
Fixpoint after_stars (t : text) : option text :=
  match t with
  | "*"%char :: ("*"%char :: r) as t' => Some r
  | _ :: r => after_stars r
  | [] => None
  end.
Fixpoint before_stars (t : text) : text :=
  match t with
  | "*"%char :: (("*"%char :: _)) => []
  | c :: r => c :: before_stars r
  | [] => []
  end.
(** agnostic.py 158-175: (function, variable, position). *)
Definition last_piece (t : text) : text := last (split_on "."%char t) [].
Definition parse_argument (r : re) (offset : Z) (idx : nat) (item : text) : list (option text * text * Z) :=
  match search r item with
  | None => []
  | Some m =>
      let i := (Z.of_nat idx - offset)%Z in
      if isidentifier item then [(None, whole m, i)]
      else match after_stars item with
           | Some p => [(Some (strip (before_stars p)), whole m, i)]
           | None => [(Some (last_piece (hd [] (split_on c_open item))), whole m, i)]
           end
  end.
Fixpoint parse_arguments_from (idx : nat) (r : re) (e : engine) (items : list text) : list (option text * text * Z) :=
  match items with
  | [] => []
  | item :: rest => parse_argument r (match e with EPymc => 1 | _ => 0 end)%Z idx item ++ parse_arguments_from (S idx) r e rest
  end.
Definition parse_arguments := parse_arguments_from 0.
(** distribution_helper.py 204-253: dist with its initial values. MvNormal, Mixture and Hurdle have no entry (KeyError); those of Truncated and
    Censored lack the distribution (TypeError). *)
Definition make_initial (c : cls) : res cls :=
  match c with
  | Fam _ | CCategorical | CDirichlet => Ok c
  | CMvNormal | CMixture | CHurdle => Err KeyError
  | CTruncated | CCensored => Err TypeError
  end.
(** agnostic.py 128-155. The model maps a parameter to its distribution, the position of the argument and the function. *)
Fixpoint put_all (c : cls) (args : list (option text * text * Z)) (model : list (text * (cls * Z * option text))) :=
  match args with [] => model | (f, v, i) :: r => put_all c r (dict_put model v (c, i, f)) end.
Fixpoint pred_loop (ms : list found) (r : re) (e : engine) (model : list (text * (cls * Z * option text))) : res (list (text * (cls * Z * option text))) :=
  match ms with
  | [] => Ok model
  | m :: rest =>
      let name := group m (match e with EBambi => 1 | _ => 2 end) in
      let items := map strip (split_on c_comma (group m (match e with EBambi => 2 | _ => 3 end))) in
      match parse_arguments r e items with
      | [] => pred_loop rest r e model
      | args => do c <- class_of name; do d <- make_initial c; pred_loop rest r e (put_all d args model)
      end
  end.
Definition parse_function_for_pred_textboxes (source : text) (params : list text) (e : engine) : res (list (text * (cls * Z * option text))) :=
  pred_loop (match_preliz_dist source e) (words_re params) e [].
(** plot_helper.py 399-416: the limits shown beside a text box. [float p] is float(func) when func consists of digits and at most one
    point. *)
Section Limits.
Variable float : text -> option R.
Definition is_one_of (l : list string) (t : text) : bool := existsb (fun s => text_eqb (txt s) t) l.
Definition box_limits (b : bound) (func : option text) : bound :=
  let '(lower, upper) := b in
  match func with
  | None => (lower, upper)
  | Some f =>
      let lower1 :=
        if xeqb lower (Fin eps) then
          if is_one_of ["exp"; "abs"; "expit"; "logistic"]%string f then NInf
          else if is_one_of ["log"%string] f then Fin 1
          else match float f with
               | Some v => if Reqb (v - 2 * IZR (Int_part (v / 2))) 0 then NInf else lower
               | None => lower
               end
        else lower in
      let lower2 := match upper with
                    | Some u => if xeqb u (Fin (1 - eps)) && is_one_of ["expit"; "logistic"]%string f then PInf else lower1
                    | None => lower1
                    end in
      (lower2, upper)
  end.
(** params_support of the classes that [make_initial] makes (categorical.py 52, continuous_multivariate.py 69). *)
Definition supports (c : cls) : list bound :=
  match c with
  | Fam f => params_support f (map fst (init_vals f)) (Some (Fin 50))
  | CCategorical | CDirichlet => [positive]
  | _ => []
  end.
(** plot_helper.py 393-421: one box per parameter of the function; model[name] raises KeyError when the parameter was not found, and
    params_support[idx] IndexError when the position is too large (a negative one counts from the end). *)
Definition py_index {A} (l : list A) (i : Z) : res A :=
  let j := (if i <? 0 then i + Z.of_nat (List.length l) else i)%Z in
  if (j <? 0)%Z then Err IndexError else match nth_error l (Z.to_nat j) with Some x => Ok x | None => Err IndexError end.
Fixpoint get_textboxes (params : list text) (model : list (text * (cls * Z * option text))) : res (list (text * bound)) :=
  match params with
  | [] => Ok []
  | name :: r =>
      match dict_find model name with
      | None => Err KeyError
      | Some (c, i, f) =>
          do lu <- py_index (supports c) i;
          do boxes <- get_textboxes r model;
          Ok ((name, box_limits lu f) :: boxes)
      end
  end.
(** predictive_explorer.py 68-70: the boxes shown for a function with this source and these parameters. *)
Definition explorer_boxes (source : text) (params : list text) (e : engine) : res (list (text * bound)) :=
  do model <- parse_function_for_pred_textboxes (erase comment source) params e; get_textboxes params model.
End Limits.

(* ------------------------------------------------------------ draws and selections *)
Section Draws.
Context {V : Type}.
(** agnostic.py 178-199, engine preliz: run i of the function gives [runs i], a value for each variable. *)
Fixpoint zip_run (variables : list text) (obs : text) (values : list V) (pp : list V) (prior : list (text * list V)) : res (list V * list (text * list V)) :=
  match variables, values with
  | name :: vs, v :: r =>
      if text_eqb name obs then zip_run vs obs r (pp ++ [v]) prior
      else match dict_find prior name with
           | Some l => zip_run vs obs r pp (dict_put prior name (l ++ [v]))
           | None => Err KeyError
           end
  | _, _ => Ok (pp, prior)
  end.
Fixpoint runs_loop (variables : list text) (obs : text) (runs : list (list V)) (pp : list V) (prior : list (text * list V)) :=
  match runs with
  | [] => Ok (pp, prior)
  | values :: r => do x <- zip_run variables obs values pp prior; runs_loop variables obs r (fst x) (snd x)
  end.
Definition get_prior_pp_samples (variables : list text) (runs : list (list V)) : res (list V * list (text * list V)) :=
  match rev variables with
  | [] => Err IndexError
  | obs :: _ => runs_loop variables obs runs [] (fold_left (fun d n => dict_put d n []) (removelast variables) [])
  end.
(** predictive_helper.py 33-37. *)
Fixpoint take_rows (l : list V) (selected : list nat) : res (list V) :=
  match selected with
  | [] => Ok []
  | i :: r => match nth_error l i with Some v => do t <- take_rows l r; Ok (v :: t) | None => Err IndexError end
  end.
Fixpoint select_prior_samples (selected : list nat) (prior : list (text * list V)) (names : list text) : res (list (text * list V)) :=
  match names with
  | [] => Ok []
  | n :: r => match dict_find prior n with
              | Some l => do t <- take_rows l selected; do d <- select_prior_samples selected prior r; Ok ((n, t) :: d)
              | None => Err KeyError
              end
  end.
End Draws.
