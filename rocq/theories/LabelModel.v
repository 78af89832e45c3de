(** Model of what is written beside the plots of a distribution and of where they are drawn: preliz/internal/plot_helper.py
    297-331 (get_ax, side_legend, get_moments), 718-733 (set_label) and their use in plot_pdfpmf, plot_cdf, plot_ppf, plot_sf
    and plot_isf (128-294); and of the notice that a tool needs a notebook, plot_helper.py 658-678. The shapes drawn are in
    CurveModel. Text is UTF-8 as a list of characters of one byte. *)
From Coq Require Import List Bool Ascii String Arith.
From Verif Require Import Base TextModel ShowModel LawModel.
Import ListNotations.
Open Scope list_scope.

(** The argument legend: None, a string, or anything else (True, a number). *)
Inductive legend_arg := LNone | LStr (s : text) | LOther.
Definition is_title (l : legend_arg) : bool := match l with LStr s => text_eqb s (tx "title") | _ => false end.

Section Labels.
Context {V F : Type}.
(** f"{value:.3g}" *)
Variable fmt3 : V -> text.

(** plot_helper.py 315-321. *)
Definition symbol (c : ascii) : res text :=
  if Ascii.eqb c "m" then Ok (tx "μ")
  else if Ascii.eqb c "d" then Ok (tx "σ")
  else if Ascii.eqb c "s" then Ok (tx "γ")
  else if Ascii.eqb c "v" then Ok (tx "σ²")
  else if Ascii.eqb c "k" then Ok (tx "κ")
  else Err KeyError.
(** plot_helper.py 325-329. *)
Fixpoint pieces (seen : text) (types : text) (values : list V) : res (list text) :=
  match types, values with
  | m :: types', v :: values' =>
      do here <- (if existsb (Ascii.eqb m) seen then Ok [] else do n <- symbol m; Ok [n ++ tx "=" ++ fmt3 v]);
      do rest <- pieces (seen ++ [m]) types' values';
      Ok (here ++ rest)
  | _, _ => Ok []
  end.
(** plot_helper.py 314-331. Simplifications: the argument is a string, and the methods that compute the moments return. *)
Definition get_moments (fs : moment_methods V) (types : string) : res text :=
  do values <- moments fs types;
  do str_m <- pieces [] (tx types) values;
  Ok (c_newline :: join (tx ", ") str_m).

(** Axes of matplotlib, as far as text is concerned: the title, the labels of the curves in the order in which they were drawn
    and the lines of the legend box, if there is one. Only curves that get a label from PreliZ are listed, one per plot; the
    dotted line of a discrete pdf, the stems, the baseline and the point interval have none. *)
Record panel := mkPanel { p_title : option text; p_labels : list (option text); p_legend : option (list text) }.
Definition empty : panel := mkPanel None [] None.
(** A figure: its size, if one was asked for, and its current axes, if it has axes. *)
Record figure := mkFigure { g_size : option F; g_current : option nat }.
(** The state of pyplot: all axes, all figures, and which of these is active. *)
Record world := mkWorld { w_panels : list panel; w_figures : list figure; w_active : option nat }.
Fixpoint put {A} (l : list A) (i : nat) (x : A) : list A :=
  match l, i with
  | [], _ => []
  | _ :: r, O => x :: r
  | y :: r, S i => y :: put r i x
  end.

(** plot_helper.py 297-304. figure.gca() of matplotlib makes axes if there are none; plt.subplots makes the new figure the
    active one. *)
Definition get_ax (ax : option nat) (figsize : option F) (w : world) : res (nat * world) :=
  match ax with
  | Some a => Ok (a, w)
  | None =>
      let a := List.length (w_panels w) in
      match w_active w with
      | Some f =>
          match nth_error (w_figures w) f with
          | Some (mkFigure _ (Some c)) => Ok (c, w)
          | Some (mkFigure size None) => Ok (a, mkWorld (w_panels w ++ [empty]) (put (w_figures w) f (mkFigure size (Some a))) (Some f))
          | None => Err ValueError
          end
      | None => Ok (a, mkWorld (w_panels w ++ [empty]) (w_figures w ++ [mkFigure figsize (Some a)]) (Some (List.length (w_figures w))))
      end
  end.

(** What ax.legend() of matplotlib lists: the labels that are not empty and do not begin with an underscore. *)
Definition shown (l : option text) : list text :=
  match l with
  | Some (c :: r) => if Ascii.eqb c "_" then [] else [c :: r]
  | _ => []
  end.
(** plot_helper.py 307-311. Where the box is put is left out. *)
Definition side_legend (legend : legend_arg) (p : panel) : panel :=
  match legend with
  | LStr s => if text_eqb s (tx "title") then p else mkPanel (p_title p) (p_labels p) (Some (flat_map shown (p_labels p)))
  | _ => p
  end.

(** plot_helper.py 718-733. [str] is what str(dist) returns or raises. *)
Definition set_label (str : res text) (fs : moment_methods V) (legend : legend_arg) (types : option string) (p : panel)
    : res (panel * option text) :=
  match legend with
  | LNone => Ok (p, None)
  | _ =>
      match match legend with
            | LStr s => if negb (existsb (text_eqb s) [tx "title"; tx "legend"]) then Some s else None
            | _ => None
            end with
      | Some s => Ok (p, Some s)
      | None =>
          do label <- str;
          do label <- match types with None => Ok label | Some ts => do m <- get_moments fs ts; Ok (label ++ m) end;
          if is_title legend then Ok (mkPanel (Some label) (p_labels p) (p_legend p), None) else Ok (p, Some label)
      end
  end.

(** One call of plot_pdf, plot_cdf, plot_sf, plot_ppf or plot_isf of a distribution whose parameters are numbers. [before] is
    what computing the points of the curve raises, if anything, and [after] what the point interval raises. *)
Record call := mkCall {
  c_str : res text; c_moment : moment_methods V;
  c_types : option string; c_legend : legend_arg; c_figsize : option F; c_ax : option nat;
  c_before : res unit; c_after : res unit }.
(** plot_helper.py 141-198, 202-227, 231-246, 250-275 and 279-294. *)
Definition plot (c : call) (w : world) : world * res nat :=
  match get_ax (c_ax c) (c_figsize c) w with
  | Err e => (w, Err e)
  | Ok (a, w) =>
      let save p := mkWorld (put (w_panels w) a p) (w_figures w) (w_active w) in
      match nth_error (w_panels w) a with
      | None => (w, Err AttributeError)
      | Some p =>
          match set_label (c_str c) (c_moment c) (c_legend c) (c_types c) p with
          | Err e => (w, Err e)
          | Ok (p, label) =>
              match c_before c with
              | Err e => (save p, Err e)
              | Ok _ =>
                  let p := mkPanel (p_title p) (p_labels p ++ [label]) (p_legend p) in
                  match c_after c with
                  | Err e => (save p, Err e)
                  | Ok _ => (save (side_legend (c_legend c) p), Ok a)
                  end
              end
          end
      end
  end.
(** Several calls, one after the other; the first that raises ends them. Also the loop for parameters that are arrays,
    distributions.py 726-743 (804-820, 865-880, 941-957, 1002-1017), with the axes of one plot passed to the next: see
    [plot_rows]. *)
Fixpoint plots (cs : list call) (w : world) : world * res (list nat) :=
  match cs with
  | [] => (w, Ok [])
  | c :: cs =>
      match plot c w with
      | (w, Err e) => (w, Err e)
      | (w, Ok a) => let (w, r) := plots cs w in (w, do l <- r; Ok (a :: l))
      end
  end.
Definition with_ax (c : call) (ax : option nat) : call :=
  mkCall (c_str c) (c_moment c) (c_types c) (c_legend c) (c_figsize c) ax (c_before c) (c_after c).
(** distributions.py 726-743, 804-820, 865-880, 941-957 and 1002-1017: the rows differ in the distribution, not in the arguments; [ax] is the axes given or the one the
    row before returned. *)
Fixpoint plot_rows (cs : list call) (ax : option nat) (w : world) : world * res (option nat) :=
  match cs with
  | [] => (w, Ok ax)
  | c :: cs =>
      match plot (with_ax c ax) w with
      | (w, Err e) => (w, Err e)
      | (w, Ok a) => plot_rows cs (Some a) w
      end
  end.
End Labels.

(** The notice. plot_helper.py 658-678. *)
Definition lower_char (c : ascii) : ascii := let n := code c in if (65 <=? n) && (n <=? 90) then ascii_of_nat (n + 32) else c.
Definition last_of (l : list text) : text := last l [].
(** 662-674: the exception, if one is raised. [shell] is the class of get_ipython(), if that is not None. *)
Definition notebook_body (shell : option text) (backend name : text) (need_widget : bool) : option text :=
  match shell with
  | None => Some (tx "To run " ++ name ++ tx ", you need to call it from within a Jupyter notebook or Jupyter lab.")
  | Some s =>
      if need_widget then
        if text_eqb s (tx "ZMQInteractiveShell") &&
           negb (existsb (text_eqb (map lower_char (last_of (split_on "_" backend)))) [tx "ipympl"; tx "widget"; tx "nbagg"])
        then Some (tx "To run " ++ name ++ tx ", you need use the magic `%matplotlib widget`") else None
      else None
  end.
(** 675-678: what is printed. [trace] is the traceback above its last line, which ends with a newline. rsplit with maxsplit=1
    gives the text after the last newline, which is also the last piece of all. *)
Definition check_inside_notebook (trace : text) (shell : option text) (backend name : text) (need_widget : bool) : option text :=
  match notebook_body shell backend name need_widget with
  | None => None
  | Some msg => Some (last_of (split_on c_newline (strip (trace ++ [c_newline] ++ tx "RuntimeError: " ++ msg ++ [c_newline]))))
  end.
(** The tools that call it, the name of the function in which the call is, and whether a widget is needed: ppa.py 62,
    distributions.py 1055, continuous_multivariate.py 416 and 909, roulette.py 71, quartile_int.py 58. *)
Inductive tool := Ppa | PlotInteractive | Roulette | QuartileInt.
Definition called_in (t : tool) : text * bool :=
  match t with
  | Ppa => (tx "ppa", true)
  | PlotInteractive => (tx "plot_interactive", false)
  | Roulette => (tx "__init__", true)
  | QuartileInt => (tx "__init__", true)
  end.
(** A tool: what it prints first, and its result, which is that of the [rest] of the code. *)
Definition start {R} (trace : text) (shell : option text) (backend : text) (t : tool) (rest : res R) : list text * res R :=
  (match check_inside_notebook trace shell backend (fst (called_in t)) (snd (called_in t)) with Some l => [l] | None => [] end, rest).
