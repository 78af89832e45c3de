(** Model of the two interactive elicitation widgets: preliz/unidimensional/quartile_int.py (class QuartileInt) and the controls
    of preliz/unidimensional/roulette.py (class Roulette; its chip grid is in RouletteModel).
    ipywidgets and traitlets are modelled by what they promise: assigning a value equal to the present one notifies nobody,
    another value is stored and the observers run. Drawing on the axes is taken not to raise. Exceptions of an observer are
    reported to the notebook: the widget keeps the new value and the session goes on. *)
From Coq Require Import List Bool String Reals ZArith QArith.
From Verif Require Import Base XR CatModel RouletteModel.
Import ListNotations.
Open Scope string_scope.
Open Scope list_scope.

(** distribution_helper.py 256-266. Names of the module that are no distribution are not modelled (they raise as well);
    the modifiers cannot be built without arguments. *)
Definition class_of (n : string) : option cls := find (fun c => String.eqb (class_name c) n) all_classes.
Definition needs_arguments (c : cls) : bool := match c with CMixture | CTruncated | CCensored | CHurdle => true | _ => false end.
Fixpoint build_all (names : list string) : res (list cls) :=
  match names with
  | [] => Ok []
  | n :: r => match class_of n with
              | None => Err AttributeError
              | Some c => if needs_arguments c then Err TypeError else do cs <- build_all r; Ok (c :: cs)
              end
  end.
Definition get_distributions (names : option (list string)) : res (list cls) :=
  match names with None => build_all (map class_name all_classes) | Some l => build_all l end.

(** What the distribution panel shows. *)
Inductive panel (D : Type) := Blank | Message (m : string) | Drawn (d : D) (kind : string).
Arguments Blank {D}. Arguments Message {D}. Arguments Drawn {D}.

Definition names_eqb (a b : list string) : bool := if list_eq_dec string_dec a b then true else false.

(** quartile_int.py 133-168 (and roulette.py 299-334, where LogitNormal is left out). *)
Definition default_selection : list string := ["Normal"; "BetaScaled"; "Gamma"; "LogNormal"; "StudentT"].
Definition quartile_options : list string :=
  ["AsymmetricLaplace"; "BetaScaled"; "ChiSquared"; "ExGaussian"; "Exponential"; "Gamma"; "Gumbel"; "HalfNormal";
   "HalfStudentT"; "InverseGamma"; "Laplace"; "LogNormal"; "Logistic"; "LogitNormal"; "Moyal"; "Normal"; "Pareto"; "Rice";
   "SkewNormal"; "StudentT"; "Triangular"; "VonMises"; "Wald"; "Weibull"; "BetaBinomial"; "DiscreteWeibull"; "Geometric";
   "NegativeBinomial"; "Poisson"].
Definition roulette_options : list string :=
  ["AsymmetricLaplace"; "BetaScaled"; "ChiSquared"; "ExGaussian"; "Exponential"; "Gamma"; "Gumbel"; "HalfNormal";
   "HalfStudentT"; "InverseGamma"; "Laplace"; "LogNormal"; "Logistic"; "Moyal"; "Normal"; "Pareto"; "Rice";
   "SkewNormal"; "StudentT"; "Triangular"; "VonMises"; "Wald"; "Weibull"; "BetaBinomial"; "DiscreteWeibull"; "Geometric";
   "NegativeBinomial"; "Poisson"].

(* ------------------------------------------------------------------ QuartileInt *)
Record quartiles (D : Type) := mkQ {
  q1 : xr; q2 : xr; q3 : xr;           (* the three number boxes *)
  q_extra : string;                    (* the text of the params box *)
  q_kind : string;                     (* the selected representation *)
  q_names : list string;               (* the selected names *)
  q_dist : option D;                   (* the attribute dist *)
  q_panel : panel D
}.
Arguments mkQ {D}. Arguments q1 {D}. Arguments q2 {D}. Arguments q3 {D}. Arguments q_extra {D}. Arguments q_kind {D}.
Arguments q_names {D}. Arguments q_dist {D}. Arguments q_panel {D}.

Section QuartileInt.
Variable D : Type.
(** fit_to_quartile(distributions, q1, q2, q3, process_extra(text)), optimization.py 453-478. *)
Variable fit : list cls -> xr -> xr -> xr -> string -> res (option D).

Definition q_set (s : quartiles D) (d : option D) (p : panel D) : quartiles D :=
  mkQ (q1 s) (q2 s) (q3 s) (q_extra s) (q_kind s) (q_names s) d p.

(** quartile_int.py 187-211. process_extra raises nothing. *)
Definition match_distribution (s : quartiles D) : quartiles D * option exn :=
  if xltb (q1 s) (q2 s) && xltb (q2 s) (q3 s) then
    match (do ds <- get_distributions (Some (q_names s)); fit ds (q1 s) (q2 s) (q3 s) (q_extra s)) with
    | Err e => (q_set s (q_dist s) Blank, Some e)
    | Ok None => (q_set s None (Message "domain error"), None)
    | Ok (Some d) => (q_set s (Some d) (Drawn d (q_kind s)), None)
    end
  else (q_set s None (Message "quantiles must follow the order: q1 < q2 < q3 "), None).

(** quartile_int.py 50-86 and 88-185. *)
Definition new_quartiles (a b c : xr) (names : option (list string)) : quartiles D * option exn :=
  match_distribution (mkQ a b c "" "pdf" (match names with None => default_selection | Some l => l end) None Blank).

(** What a user does: type in the boxes, pick a representation, select names, or release the mouse on the figure. *)
Inductive qevent := QSet1 (v : xr) | QSet2 (v : xr) | QSet3 (v : xr) | QExtra (t : string) | QKind (k : string)
                  | QNames (l : list string) | QRelease.

(** quartile_int.py 70-73 and 213-221: five of the six boxes are observed. *)
Definition qstep (s : quartiles D) (e : qevent) : quartiles D * option exn :=
  match e with
  | QSet1 v => if xeqb v (q1 s) then (s, None)
               else match_distribution (mkQ v (q2 s) (q3 s) (q_extra s) (q_kind s) (q_names s) (q_dist s) (q_panel s))
  | QSet2 v => if xeqb v (q2 s) then (s, None)
               else match_distribution (mkQ (q1 s) v (q3 s) (q_extra s) (q_kind s) (q_names s) (q_dist s) (q_panel s))
  | QSet3 v => if xeqb v (q3 s) then (s, None)
               else match_distribution (mkQ (q1 s) (q2 s) v (q_extra s) (q_kind s) (q_names s) (q_dist s) (q_panel s))
  | QExtra t => (mkQ (q1 s) (q2 s) (q3 s) t (q_kind s) (q_names s) (q_dist s) (q_panel s), None)
  | QKind k => if String.eqb k (q_kind s) then (s, None)
               else match_distribution (mkQ (q1 s) (q2 s) (q3 s) (q_extra s) k (q_names s) (q_dist s) (q_panel s))
  | QNames l => if names_eqb l (q_names s) then (s, None)
                else match_distribution (mkQ (q1 s) (q2 s) (q3 s) (q_extra s) (q_kind s) l (q_dist s) (q_panel s))
  | QRelease => match_distribution s
  end.
(** A history: the exceptions reported on the way and the state reached. *)
Fixpoint qrun (s : quartiles D) (l : list qevent) : quartiles D * list exn :=
  match l with
  | [] => (s, [])
  | e :: r => let '(s', x) := qstep s e in
              let '(s'', xs) := qrun s' r in (s'', match x with Some x => x :: xs | None => xs end)
  end.
End QuartileInt.

(* ------------------------------------------------------------------ Roulette *)
Open Scope R_scope.
(** The attribute [inputs], roulette.py 181-189. *)
Record elicited := mkInputs {
  i_x : list R; i_pdf : list R; i_chips : Z; i_min : R; i_max : R; i_rows : Z; i_cols : Z }.

Record roulette (D : Type) := mkR {
  l_min : R; l_max : R;                      (* the attributes _x_min and _x_max *)
  r_grid : grid;                             (* the chips; its dimensions are the attributes _nrows and _ncols *)
  w_min : R; w_max : R; w_rows : Z; w_cols : Z;  (* the four number boxes *)
  r_extra : string; r_kind : string;
  r_options : list string; r_names : list string;
  b_cont : bool; b_disc : bool; b_none : bool;   (* the three check boxes *)
  r_dist : option D; r_inputs : option elicited; r_panel : panel D
}.
Arguments mkR {D}. Arguments l_min {D}. Arguments l_max {D}. Arguments r_grid {D}. Arguments w_min {D}. Arguments w_max {D}.
Arguments w_rows {D}. Arguments w_cols {D}. Arguments r_extra {D}. Arguments r_kind {D}. Arguments r_options {D}.
Arguments r_names {D}. Arguments b_cont {D}. Arguments b_disc {D}. Arguments b_none {D}. Arguments r_dist {D}.
Arguments r_inputs {D}. Arguments r_panel {D}.

Section Roulette.
Variable D : Type.
(** fit_to_epdf(distributions, x_vals, epdf, mean, std, x_min, x_max, process_extra(text)), optimization.py 389-413. *)
Variable fit : list cls -> pdf_result -> R -> R -> string -> res (option D).

Definition r_result (s : roulette D) (d : option D) (i : option elicited) (p : panel D) : roulette D :=
  mkR (l_min s) (l_max s) (r_grid s) (w_min s) (w_max s) (w_rows s) (w_cols s) (r_extra s) (r_kind s) (r_options s) (r_names s)
    (b_cont s) (b_disc s) (b_none s) d i p.
Definition chips (g : grid) : Z := fold_right Z.add 0%Z (map snd (weight_items g)).
Definition inputs_of (s : roulette D) (p : pdf_result) : elicited :=
  mkInputs (x_vals p) (epdf p) (chips (r_grid s)) (l_min s) (l_max s) (nrows (r_grid s)) (ncols (r_grid s)).

(** roulette.py 151-190. *)
Definition on_leave_fig (s : roulette D) : roulette D * option exn :=
  match weights_to_pdf (r_grid s) (l_min s) (l_max s) with
  | Err e => (s, Some e)
  | Ok p =>
      let i := Some (inputs_of s p) in
      if Nat.ltb 1 (filled p) then
        match get_distributions (Some (r_names s)) with
        | Err e => (s, Some e)
        | Ok [] => (r_result s None i (r_panel s), None)
        | Ok ds =>
            match fit ds p (l_min s) (l_max s) (r_extra s) with
            | Err e => (r_result s (r_dist s) (r_inputs s) Blank, Some e)
            | Ok None => (r_result s None i (Message "domain error"), None)
            | Ok (Some d) => (r_result s (Some d) i (Drawn d (r_kind s)), None)
            end
        end
      else (r_result s None i Blank, None)
  end.

(** roulette.py 203-214 called from 372-377: the boxes become the attributes, the grid is emptied. *)
Definition update_grid (s : roulette D) : roulette D :=
  mkR (w_min s) (w_max s) (new_grid (w_rows s) (w_cols s)) (w_min s) (w_max s) (w_rows s) (w_cols s) (r_extra s) (r_kind s)
    (r_options s) (r_names s) (b_cont s) (b_disc s) (b_none s) (r_dist s) (r_inputs s) Blank.
Definition with_boxes (s : roulette D) (a b : R) (n m : Z) : roulette D :=
  mkR (l_min s) (l_max s) (r_grid s) a b n m (r_extra s) (r_kind s) (r_options s) (r_names s)
    (b_cont s) (b_disc s) (b_none s) (r_dist s) (r_inputs s) (r_panel s).
Definition with_names (s : roulette D) (l : list string) : roulette D :=
  mkR (l_min s) (l_max s) (r_grid s) (w_min s) (w_max s) (w_rows s) (w_cols s) (r_extra s) (r_kind s) (r_options s) l
    (b_cont s) (b_disc s) (b_none s) (r_dist s) (r_inputs s) (r_panel s).
Definition with_texts (s : roulette D) (extra kind : string) : roulette D :=
  mkR (l_min s) (l_max s) (r_grid s) (w_min s) (w_max s) (w_rows s) (w_cols s) extra kind (r_options s) (r_names s)
    (b_cont s) (b_disc s) (b_none s) (r_dist s) (r_inputs s) (r_panel s).
Definition with_checks (s : roulette D) (c d n : bool) : roulette D :=
  mkR (l_min s) (l_max s) (r_grid s) (w_min s) (w_max s) (w_rows s) (w_cols s) (r_extra s) (r_kind s) (r_options s) (r_names s)
    c d n (r_dist s) (r_inputs s) (r_panel s).
Definition with_grid (s : roulette D) (g : grid) : roulette D :=
  mkR (l_min s) (l_max s) g (w_min s) (w_max s) (w_rows s) (w_cols s) (r_extra s) (r_kind s) (r_options s) (r_names s)
    (b_cont s) (b_disc s) (b_none s) (r_dist s) (r_inputs s) (r_panel s).

(** ipywidgets' BoundedIntText with min=2 and the default max=100 (roulette.py 265-281) stores the nearest allowed number. *)
Definition clamp (n : Z) : Z := Z.min (Z.max n 2) 100.

(** roulette.py 224-242: the names for the boxes that are ticked. *)
Definition listed (options : list string) (l : list cls) : list string :=
  filter (fun n => existsb (String.eqb n) options) (map class_name l).
Definition checked_names (s : roulette D) : list string :=
  if b_none s then []
  else ((if b_cont s then listed (r_options s) all_continuous else []) ++
        (if b_disc s then listed (r_options s) all_discrete else []))%list.
(** roulette.py 224-242 and 392-394. While the box None is ticked the other two are unticked; their own notifications
    do the same again and are not repeated here. Selecting other names refits. *)
Definition handle_checkbox_change (s : roulette D) : roulette D * option exn :=
  let s := if b_none s then with_checks s false false true else s in
  let names := checked_names s in
  if names_eqb names (r_names s) then (s, None) else on_leave_fig (with_names s names).

Inductive revent :=
  | RPress (inaxes : bool) (x y : Q) | RRelease
  | RMin (v : R) | RMax (v : R) | RRows (n : Z) | RCols (n : Z)
  | RExtra (t : string) | RKind (k : string) | RNames (l : list string)
  | RCont (b : bool) | RDisc (b : bool) | RNone (b : bool).

(** roulette.py 86, 367-390, 396-399 and 409. The observer of x_min that is restricted to its value runs before the others. *)
Definition rstep (s : roulette D) (e : revent) : roulette D * option exn :=
  match e with
  | RPress i x y => (with_grid s (click (r_grid s) i x y), None)
  | RRelease => on_leave_fig s
  | RMin v => if Reqb v (w_min s) then (s, None)
              else let s := with_boxes s v (w_max s) (w_rows s) (w_cols s) in
                   let s := if Reqb v (w_max s) then update_grid (with_boxes s v (v + 1) (w_rows s) (w_cols s)) else s in
                   (update_grid s, None)
  | RMax v => if Reqb v (w_max s) then (s, None) else (update_grid (with_boxes s (w_min s) v (w_rows s) (w_cols s)), None)
  | RRows n => if Z.eqb (clamp n) (w_rows s) then (s, None)
               else (update_grid (with_boxes s (w_min s) (w_max s) (clamp n) (w_cols s)), None)
  | RCols n => if Z.eqb (clamp n) (w_cols s) then (s, None)
               else (update_grid (with_boxes s (w_min s) (w_max s) (w_rows s) (clamp n)), None)
  | RExtra t => if String.eqb t (r_extra s) then (s, None) else on_leave_fig (with_texts s t (r_kind s))
  | RKind k => if String.eqb k (r_kind s) then (s, None) else on_leave_fig (with_texts s (r_extra s) k)
  | RNames l => if names_eqb l (r_names s) then (s, None) else on_leave_fig (with_names s l)
  | RCont b => if eqb b (b_cont s) then (s, None) else handle_checkbox_change (with_checks s b (b_disc s) (b_none s))
  | RDisc b => if eqb b (b_disc s) then (s, None) else handle_checkbox_change (with_checks s (b_cont s) b (b_none s))
  | RNone b => if eqb b (b_none s) then (s, None) else handle_checkbox_change (with_checks s (b_cont s) (b_disc s) b)
  end.

(** roulette.py 58-86 and 244-365: the attributes are the arguments, the boxes what they accept of them. *)
Definition new_roulette (x_min x_max : R) (nr nc : Z) (names : option (list string)) (params : string) : roulette D :=
  let options := match names with None => roulette_options | Some l => l end in
  let selected := match names with None => default_selection | Some l => l end in
  mkR x_min x_max (new_grid nr nc) x_min x_max (clamp nr) (clamp nc) params "pdf" options selected false false false None None Blank.

Fixpoint rrun (s : roulette D) (l : list revent) : roulette D * list exn :=
  match l with
  | [] => (s, [])
  | e :: r => let '(s', x) := rstep s e in
              let '(s'', xs) := rrun s' r in (s'', match x with Some x => x :: xs | None => xs end)
  end.
End Roulette.
