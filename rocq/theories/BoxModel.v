(** Model of the boxes in which the predictive explorer shows the parameters of a model function, and of the arguments that the function is
    called with: preliz/internal/plot_helper.py 373-474 (get_boxes, get_textboxes), preliz/ppls/agnostic.py 229-286 (the keywords of the callback)
    and preliz/predictive/predictive_explorer.py 64-72. The reading of the source is in SourceModel.v, the drawing in ExploreModel.v. *)
From Coq Require Import List Bool String Ascii Reals ZArith.
From Verif Require Import Base XR TextModel ReModel FamModel BoundModel CatModel SourceModel PplModel.
Import ListNotations.
Open Scope R_scope.

(** What a distribution keeps in a parameter: np.float64, np.int64 or an array. *)
Inductive cell := Real (r : R) | Whole (z : Z) | Values (l : list R).
(** The attributes of the distributions made with their initial values (distribution_helper.py 204-253), in the order of param_names. The four
    families that keep whole numbers: betabinomial.py 72, binomial.py 63, hypergeometric.py 64-66, zi_binomial.py 66. DiscreteUniform keeps the
    floor and the ceiling of its limits, which are floats (discrete_uniform.py 64-65). *)
Definition stored (c : cls) : list cell :=
  match c with
  | Fam BetaBinomial => [Real 2; Real 2; Whole 10]
  | Fam Binomial => [Whole 5; Real (1 / 2)]
  | Fam ZeroInflatedBinomial => [Real (7 / 10); Whole 10; Real (1 / 2)]
  | Fam HyperGeometric => [Whole 50; Whole 10; Whole 20]
  | Fam f => map (fun p => Real (snd p)) (init_vals f)
  | CCategorical => [Values [1 / 2; 1 / 10; 4 / 10]]
  | CDirichlet => [Values [1; 1; 1]]
  | _ => []
  end.
(** The default of a parameter of the function: an int or a float (a bool is an int), or anything else, or none. *)
Inductive default := Number (r : xr) | NotANumber.

(** f"{x:.0f}": the nearest whole number, the even one of two. *)
Definition round_even (r : R) : Z :=
  let z := Int_part r in
  if Rltb (r - IZR z) (1 / 2) then z
  else if Rltb (1 / 2) (r - IZR z) then (z + 1)%Z
  else if Z.even z then z else (z + 1)%Z.
Definition fmt0 (x : xr) : xr := match x with Fin r => Fin (IZR (round_even r)) | _ => x end.
(** A box: its description is "name (lower, upper)"; [whole] tells IntText from FloatText. *)
Record box := mkBox { b_name : text; b_lower : xr; b_upper : xr; b_whole : bool; b_value : xr }.
(** plot_helper.py 373-388. None has no format .0f (TypeError); the text boxes hold no array (traitlets' TraitError). A value that is not a float,
    and the value of np.int64 is not, is shown in an IntText. *)
Definition get_boxes (name : text) (value : cell + xr) (limits : bound) : res box :=
  match snd limits with
  | None => Err TypeError
  | Some upper =>
      match value with
      | inr x => Ok (mkBox name (fmt0 (fst limits)) (fmt0 upper) false x)
      | inl (Real r) => Ok (mkBox name (fmt0 (fst limits)) (fmt0 upper) false (Fin r))
      | inl (Whole z) => Ok (mkBox name (fmt0 (fst limits)) (fmt0 upper) true (Fin (IZR z)))
      | inl (Values _) => Err TraitError
      end
  end.
Section Boxes.
Variable float : text -> option R.
(** plot_helper.py 391-421. *)
Fixpoint parameter_boxes (params : list (text * default)) (model : list (text * (cls * Z * option text))) : res (list box) :=
  match params with
  | [] => Ok []
  | (name, d) :: r =>
      match dict_find model name with
      | None => Err KeyError
      | Some (c, i, f) =>
          do lu <- py_index (supports c) i;
          do value <- match d with Number x => Ok (inr x) | NotANumber => do v <- py_index (stored c) i; Ok (inl v) end;
          do b <- get_boxes name value (box_limits float lu f);
          do boxes <- parameter_boxes r model; Ok (b :: boxes)
      end
  end.
(** predictive_explorer.py 66-68. *)
Definition explorer_opens (source : text) (params : list (text * default)) (e : engine) : res (list box) :=
  do model <- parse_function_for_pred_textboxes (erase comment source) (map fst params) e; parameter_boxes params model.
End Boxes.

(** The widgets: a box for a parameter, another box for numbers, a check box or button, a choice among options. *)
Inductive widget := TextBox (b : box) | NumberBox (x : xr) | Flag (b : bool) | Choice (options : list text) (chosen : text).
Definition widgets := list (text * widget).
Fixpoint set_item {A} (d : list (text * A)) (k : text) (v : A) : list (text * A) :=
  match d with [] => [(k, v)] | (k', v') :: r => if text_eqb k' k then (k', v) :: r else (k', v') :: set_item r k v end.
(** plot_helper.py 423-472. RadioButtons raises TraitError for a value that is not among its options. *)
Definition kinds : list text := map txt ["hist"; "kde"; "ecdf"]%string.
Definition other_widgets (kind_plot : text) : res widgets :=
  if existsb (text_eqb kind_plot) kinds then
    Ok [ (txt "__set_xlim__", Flag false); (txt "__x_min__", NumberBox (Fin (-10))); (txt "__x_max__", NumberBox (Fin 10));
         (txt "__set_ylim__", Flag false); (txt "__y_min__", NumberBox (Fin (-10))); (txt "__y_max__", NumberBox (Fin 10));
         (txt "__resample__", Flag true); (txt "__kind__", Choice kinds kind_plot) ]
  else Err TraitError.
(** plot_helper.py 392, 421, 474: the dictionary of all widgets. *)
Definition textboxes (boxes : list box) (kind_plot : text) : res widgets :=
  do others <- other_widgets kind_plot;
  Ok (fold_left (fun d kw => set_item d (fst kw) (snd kw)) others (fold_left (fun d b => set_item d (b_name b) (TextBox b)) boxes [])).

(** What the user does: a number is typed, a box is ticked or unticked (the button pressed), an option chosen. IntText keeps int(value), which is not
    defined for inf and nan (TraitError: the value stays). The limits are only written beside the box. *)
Inductive event := Typed (name : text) (x : xr) | Ticked (name : text) (b : bool) | Chosen (name option : text).
Definition truncate (r : R) : Z := if Rltb r 0 then (- Int_part (- r))%Z else Int_part r.
Definition type_in (b : box) (x : xr) : option box :=
  if b_whole b then
    match x with Fin r => Some (mkBox (b_name b) (b_lower b) (b_upper b) true (Fin (IZR (truncate r)))) | _ => None end
  else Some (mkBox (b_name b) (b_lower b) (b_upper b) false x).
(** The values of the widgets, as the keywords of the callback. *)
Inductive val := Num (x : xr) | Bool (b : bool) | Text (t : text).
Definition value_of (w : widget) : val :=
  match w with TextBox b => Num (b_value b) | NumberBox x => Num x | Flag b => Bool b | Choice _ t => Text t end.
(** Comparing two values as Python does: nan differs from itself. *)
Definition same_value (v w : val) : bool :=
  match v, w with Num x, Num y => xeqb x y | Bool a, Bool b => Bool.eqb a b | Text s, Text t => text_eqb s t | _, _ => false end.
(** The widget after the event, if the event sets it. *)
Definition assigned (w : widget) (e : event) : option widget :=
  match e, w with
  | Typed _ x, TextBox b => option_map TextBox (type_in b x)
  | Typed _ x, NumberBox _ => Some (NumberBox x)
  | Ticked _ b, Flag _ => Some (Flag b)
  | Chosen _ o, Choice options _ => if existsb (text_eqb o) options then Some (Choice options o) else None
  | _, _ => None
  end.
Definition about (e : event) : text := match e with Typed n _ | Ticked n _ | Chosen n _ => n end.
Definition react (e : event) (kw : text * widget) : text * widget :=
  (fst kw, if text_eqb (fst kw) (about e) then match assigned (snd kw) e with Some w => w | None => snd kw end else snd kw).
Definition happen (ws : widgets) (e : event) : widgets := map (react e) ws.
(** traitlets tells the observers of a widget only of values that differ from the one before. *)
Definition noticed (ws : widgets) (e : event) : bool :=
  existsb (fun kw => text_eqb (fst kw) (about e) &&
    match assigned (snd kw) e with Some w => negb (same_value (value_of (snd kw)) (value_of w)) | None => false end) ws.

Definition keywords := list (text * val).
Definition lookup (k : text) (d : keywords) : option val := option_map snd (find (fun kv => text_eqb (fst kv) k) d).
Definition remove (k : text) (d : keywords) : keywords := filter (fun kv => negb (text_eqb (fst kv) k)) d.
(** kwargs.pop(k) and kwargs.pop(k, v). *)
Definition pop (k : text) (d : keywords) : res (val * keywords) := match lookup k d with Some v => Ok (v, remove k d) | None => Err KeyError end.
Definition pop_or (k : text) (v : option val) (d : keywords) : option val * keywords :=
  match lookup k d with Some v' => (Some v', remove k d) | None => (v, d) end.
Definition truth (v : option val) : bool := match v with Some (Bool b) => b | _ => false end.
(** agnostic.py 229-256, 284-286: the limits of the axes (none means automatic), the kind of plot, and the arguments of the function (lines 254, 262,
    274), which are the keywords that remain. *)
Record drawing := { d_x : option (val * val); d_y : option (option val * option val); d_kind : option val; d_args : keywords }.
Definition callback (kind_plot : text) (kw : keywords) : res drawing :=
  do r <- pop (txt "__resample__") kw;
  do xmin <- pop (txt "__x_min__") (snd r);
  do xmax <- pop (txt "__x_max__") (snd xmin);
  do setx <- pop (txt "__set_xlim__") (snd xmax);
  let ymin := pop_or (txt "__y_min__") None (snd setx) in
  let ymax := pop_or (txt "__y_max__") None (snd ymin) in
  let sety := pop_or (txt "__set_ylim__") (Some (Bool false)) (snd ymax) in
  let kind := pop_or (txt "__kind__") (Some (Text kind_plot)) (snd sety) in
  Ok {| d_x := if truth (Some (fst setx)) then Some (fst xmin, fst xmax) else None;
        d_y := if truth (fst sety) then Some (fst ymin, fst ymax) else None;
        d_kind := fst kind; d_args := snd kind |}.
Definition values (ws : widgets) : keywords := map (fun kw => (fst kw, value_of (snd kw))) ws.
(** ipywidgets' interactive_output calls the callback once at the start and after each change of a value. *)
Fixpoint redrawn (kind_plot : text) (ws : widgets) (es : list event) : list (res drawing) :=
  match es with
  | [] => []
  | e :: r => (if noticed ws e then [callback kind_plot (values (happen ws e))] else []) ++ redrawn kind_plot (happen ws e) r
  end.
Definition drawings (kind_plot : text) (ws : widgets) (es : list event) : list (res drawing) :=
  callback kind_plot (values ws) :: redrawn kind_plot ws es.
(** predictive_explorer.py 73-89: the names of the widgets on the left, above the plot, and on the right. *)
Definition default_names : list text :=
  map txt ["__kind__"; "__set_xlim__"; "__x_min__"; "__x_max__"; "__set_ylim__"; "__y_min__"; "__y_max__"; "__resample__"]%string.
Fixpoint default_controls (ws : widgets) (names : list text) : res (list (text * widget)) :=
  match names with
  | [] => Ok []
  | k :: r =>
      match find (fun kw => text_eqb (fst kw) k) ws with None => Err KeyError | Some kw => do l <- default_controls ws r; Ok (kw :: l) end
  end.
Definition layout (ws : widgets) : res (list (text * widget) * list (text * widget)) :=
  do controls <- default_controls ws default_names;
  Ok (filter (fun kw => negb (existsb (text_eqb (fst kw)) default_names)) ws, controls).
(** predictive_explorer.py 66-89: what is displayed and all the drawings of a session. *)
Definition explorer_session (float : text -> option R) (source : text) (params : list (text * default)) (e : engine) (kind_plot : text) (es : list event)
    : res (list (text * widget) * list (text * widget) * list (res drawing)) :=
  do boxes <- explorer_opens float source params e;
  do ws <- textboxes boxes kind_plot;
  do shown <- layout ws;
  Ok (shown, drawings kind_plot ws es).
