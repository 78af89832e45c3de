(** Model of one redraw of [predictive_explorer]: the callback that samples the model and draws the panel.
    Models /repo/preliz/ppls/agnostic.py (lines 226-291), /repo/preliz/internal/plot_helper.py (lines 507-547, 639-651)
    and the state that [predictive_explorer] keeps between redraws, /repo/preliz/predictive/predictive_explorer.py (64-72). *)
From Coq Require Import Reals List String Bool ZArith Lra.
From Verif Require Import Base XR LawModel.
Import ListNotations.
Local Open Scope string_scope.
Local Open Scope list_scope.
Local Open Scope R_scope.

(** Values of the keyword dictionary handed to matplotlib, and the dictionary itself: [stats_kwargs].
    A Python dictionary keeps the order of insertion; [setdefault] and [pop] are its methods. *)
Inductive value := VStr (s : string) | VNum (r : R) | VBool (b : bool) | VColors (l : list string) | VBins (l : list R).
Definition kwargs := list (string * value).
Definition has (k : string) (d : kwargs) : bool := existsb (fun kv => String.eqb (fst kv) k) d.
Fixpoint getkw (k : string) (d : kwargs) : option value :=
  match d with [] => None | (k', v) :: d' => if String.eqb k' k then Some v else getkw k d' end.
Definition setdefault (k : string) (v : value) (d : kwargs) : kwargs := if has k d then d else d ++ [(k, v)].
Definition pop (k : string) (d : kwargs) : kwargs := filter (fun kv => negb (String.eqb (fst kv) k)) d.

(** What the callback asks of matplotlib on the axes it has just created. A histogram of several data sets and a plot
    of the columns of an array are one call in the code; the plot is recorded here as one [Curve] for each column. *)
Inductive style := Styled (kw : kwargs) | Dashed.
Inductive call :=
| XLim (lo hi : option R) (auto : bool)
| YLim (lo hi : option R) (auto : bool)
| XTicks (l : list R)
| Hist (data : list (list R)) (kw : kwargs)
| PooledHist (data : list R) (kw : kwargs)
| Curve (xs ys : list R) (st : style)
| VLine (x : R)
| Text (x : R) (label : string)
| Custom (data : list (list R)).

(** What matplotlib accepts. [Axes.plot] hands its keywords to Line2D, which has no property called bins, density or
    histtype and raises AttributeError. [Axes.hist] turns [color] into an array with one row for each colour and raises
    ValueError unless there are as many as data sets. *)
Definition plot_accepts (kw : kwargs) : bool := negb (has "bins" kw || has "density" kw || has "histtype" kw).
Definition hist_accepts (n : nat) (kw : kwargs) : bool :=
  match getkw "color" kw with
  | Some (VColors l) => Nat.eqb (List.length l) n
  | Some _ => Nat.eqb 1 n
  | None => true
  end.

(** One call of the user's model: an array of integers or of floats. [None] is a NaN. Infinities are left out. *)
Record draw := { d_int : bool; d_vals : list (option R) }.

(** agnostic.py 254-259: draws with a NaN anywhere are left out, the rest are stacked. np.array raises ValueError for
    rows of different lengths; its dtype is an integer one when every row's is ([d_int]). *)
Definition no_nan (d : draw) : bool := forallb (fun v => match v with Some _ => true | None => false end) (d_vals d).
Definition vals (d : draw) : list R := flat_map (fun v => match v with Some r => [r] | None => [] end) (d_vals d).
Record results := { r_int : bool; r_rows : list (list R) }.
Definition same_lengths (l : list (list R)) : bool :=
  match l with [] => true | r :: l' => forallb (fun r' => Nat.eqb (List.length r') (List.length r)) l' end.
Definition collect (draws : list draw) : res results :=
  let kept := filter no_nan draws in
  let rows := map vals kept in
  if same_lengths rows then Ok {| r_int := forallb d_int kept; r_rows := rows |} else Err ValueError.

(** agnostic.py 261-281: the other two engines hand back an array of draws for the named variable of the named group.
    A scalar variable gives one value for each sample ([Scalars]), a vector one row for each sample ([Vectors]). For the
    group called prior, np.atleast_2d makes a scalar variable one single row. Scalars outside that group fail in every
    branch of plot_repr (a sort along axis 1, or a concatenation, of a one-dimensional array). *)
Inductive sampled := Scalars (l : list R) | Vectors (l : list (list R)).
Definition idata := string -> string -> option (bool * sampled).
Definition from_idata (d : idata) (group : string) (var_name : option string) (observed : string) : res results :=
  match d group (match var_name with Some v => v | None => observed end) with
  | None => Err KeyError
  | Some (i, Vectors l) => Ok {| r_int := i; r_rows := l |}
  | Some (i, Scalars l) => if String.eqb group "prior" then Ok {| r_int := i; r_rows := [l] |} else Err ValueError
  end.

(** np.arange(a, b) for reals: ceil(b - a) values from a on. np.linspace(0, 1, n, endpoint=False). np.min and np.max. *)
Definition ceil (r : R) : Z := (- Int_part (- r))%Z.
Definition np_arange (a b : R) : list R := map (fun i => a + INR i) (seq 0 (Z.to_nat (ceil (b - a)))).
Definition heights (n : nat) : list R := map (fun i => INR i / INR n) (seq 0 n).
Definition np_min (l : list R) : R := fold_right Rmin (hd 0 l) l.
Definition np_max (l : list R) : R := fold_right Rmax (hd 0 l) l.

(** References: a number, several numbers, or labelled numbers. *)
Inductive references := NoRefs | One (x : R) | Many (l : list R) | Labelled (l : list (string * R)).

(** plot_helper.py 639-651. The height of the label is not modelled. *)
Definition plot_references (refs : references) : list call :=
  match refs with
  | NoRefs => []
  | One x => [VLine x]
  | Many l => map VLine l
  | Labelled l => flat_map (fun lr => [Text (snd lr) (fst lr); VLine (snd lr)]) l
  end.

(** The outcome of a redraw: the dictionary it leaves behind, the calls made, and the exception that ended it, if any. *)
Definition outcome := (kwargs * (list call * option exn))%type.

Section Drawing.
Variable sort : list R -> list R.                      (* np.sort *)
Variable kde : list R -> list R * list R.              (* arviz_stats array_stats.kde: grid and density *)

(** plot_helper.py 512-517: the bins. *)
Definition integer_bins (rows : list (list R)) : list R :=
  map (fun b => b - / 2) (np_arange (np_min (List.concat rows)) (np_max (List.concat rows) + 3 / 2)).
Definition hist_bins (r : results) : value := if r_int r then VBins (integer_bins (r_rows r)) else VStr "auto".
Definition hist_ticks (r : results) : list call :=
  if r_int r && (List.length (integer_bins (r_rows r)) <? 30)%nat
  then [XTicks (map (fun b => b + / 2) (integer_bins (r_rows r)))] else [].

(** plot_helper.py 507-509. *)
Definition alpha (iterations : nat) : R := Rmax (1 / 100) (1 - INR iterations * (9 / 1000)).

(** plot_helper.py 511-528. *)
Definition plot_hist (r : results) (refs : references) (iterations : nat) (kw : kwargs) : outcome :=
  match r_rows r with
  | [] => (kw, ([], Some IndexError))
  | _ =>
    let kw := setdefault "bins" (hist_bins r) kw in
    let kw := setdefault "density" (VBool true) kw in
    let kw := setdefault "histtype" (VStr "step") kw in
    let kw := setdefault "alpha" (VNum (alpha iterations)) kw in
    let kw := setdefault "color" (VColors (repeat "0.5" iterations)) kw in
    if negb (hist_accepts (List.length (r_rows r)) kw) then (kw, (hist_ticks r, Some ValueError)) else
    let first := Hist (r_rows r) kw in
    let kw := pop "ls" (pop "color" kw) in
    (kw, (hist_ticks r ++ [first; PooledHist (List.concat (r_rows r)) (kw ++ [("color", VStr "k"); ("ls", VStr "--")])]
          ++ plot_references refs, None))
  end.

(** plot_helper.py 529-535 (without a row, np.concatenate raises ValueError). *)
Definition plot_kdes (r : results) (refs : references) (kw : kwargs) : outcome :=
  let kw := setdefault "color" (VStr "0.5") kw in
  match r_rows r with
  | [] => (kw, ([], Some ValueError))
  | _ =>
    if negb (plot_accepts kw) then (kw, ([], Some AttributeError)) else
    let pooled := kde (List.concat (r_rows r)) in
    (kw, (map (fun row => Curve (fst (kde row)) (snd (kde row)) (Styled kw)) (r_rows r)
          ++ [Curve (fst pooled) (snd pooled) Dashed] ++ plot_references refs, None))
  end.

(** plot_helper.py 537-545 (without a row, the sort along axis 1 raises numpy's AxisError, a ValueError). *)
Definition plot_ecdfs (r : results) (refs : references) (kw : kwargs) : outcome :=
  let kw := setdefault "color" (VStr "0.5") kw in
  match r_rows r with
  | [] => (kw, ([], Some ValueError))
  | row0 :: _ =>
    if negb (plot_accepts kw) then (kw, ([], Some AttributeError)) else
    let pooled := List.concat (r_rows r) in
    (kw, (map (fun row => Curve (sort row) (heights (List.length row0)) (Styled kw)) (r_rows r)
          ++ [Curve (sort pooled) (heights (List.length pooled)) Dashed] ++ plot_references refs, None))
  end.

(** plot_helper.py 507-547. *)
Definition plot_repr (r : results) (kind : string) (refs : references) (iterations : nat) (kw : kwargs) : outcome :=
  let kw := setdefault "alpha" (VNum (alpha iterations)) kw in
  if String.eqb kind "hist" then plot_hist r refs iterations kw
  else if String.eqb kind "kde" then plot_kdes r refs kw
  else if String.eqb kind "ecdf" then plot_ecdfs r refs kw
  else (kw, (plot_references refs, None)).

(** The widgets beside the panel (plot_helper.py 423-472). *)
Record controls := { c_set_xlim : bool; c_x_min : R; c_x_max : R; c_set_ylim : bool; c_y_min : R; c_y_max : R; c_kind : string }.

(** agnostic.py 229-289: one redraw, from the draws made for it. [custom] says that the user gave a plot_func. *)
Definition redraw (iterations : nat) (refs : references) (custom : bool) (kw : kwargs) (c : controls) (data : res results) : outcome :=
  match data with
  | Err e => (kw, ([], Some e))
  | Ok r =>
    let limits :=
      [ (if c_set_xlim c then XLim (Some (c_x_min c)) (Some (c_x_max c)) false else XLim None None true)
      ; (if c_set_ylim c then YLim (Some (c_y_min c)) (Some (c_y_max c)) false else YLim None None true) ] in
    if custom then (kw, (limits ++ [Custom (r_rows r)], None))
    else let (kw', out) := plot_repr r (c_kind c) refs iterations kw in (kw', (limits ++ fst out, snd out))
  end.

(** predictive_explorer.py 64-72: the same [stats_kwargs] serves every redraw. A redraw happens whenever a widget
    changes; each comes with the values of the widgets and the draws made for it. *)
Fixpoint session (iterations : nat) (refs : references) (custom : bool) (kw : kwargs) (events : list (controls * res results)) :
  kwargs * list (list call * option exn) :=
  match events with
  | [] => (kw, [])
  | (c, data) :: es =>
    let (kw1, out) := redraw iterations refs custom kw c data in
    let (kw2, outs) := session iterations refs custom kw1 es in
    (kw2, out :: outs)
  end.
End Drawing.
