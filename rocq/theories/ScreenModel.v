(** Model of what the prior predictive assistant draws: preliz/internal/plot_helper.py 550-655 (plot_pp_samples, plot_pp_mean,
    plot_kde) and, in preliz/predictive/ppa.py, the widgets of ppa (71-146), the first drawing (190-197), carry_on (353-386)
    and on_return_prior (388-404). Which samples are chosen is PpaModel. A drawn sample is the number of the sample, the way it
    is drawn and the references put over it; the lines and bars themselves are matplotlib's and array_stats.kde's. [extent] is
    what ax.get_xlim() answers after drawing. *)
From Coq Require Import List Bool Arith ZArith Reals.
From Verif Require Import Base XR TextModel PpaModel PpaProps.
Import ListNotations.

(** 83-88: the radio buttons. *)
Inductive style := Pdf | Hist | Ecdf.

Section Screen.
Variable w : world.
Variable refs : Type.
Variable nothing : refs.                              (* None *)
Variable literal : text -> option refs.               (* ast.literal_eval; None for ValueError and SyntaxError *)
Variable write : refs -> text.                        (* str *)
Variable extent : nat -> style -> refs -> R * R.

Inductive content :=
| Blank                                                (* nothing drawn, no title *)
| Sample (i : nat) (k : style) (r : refs)              (* sample i, its number as the invisible title *)
| Words.                                               (* the text of the new prior *)
Record axis := mkAxis { a_content : content; a_xlim : R * R }.
Definition title (a : axis) : option nat := match a_content a with Sample i _ _ => Some i | _ => None end.
(** Axes.cla: matplotlib's limits of an empty axis. *)
Definition blank : axis := mkAxis Blank (0, 1)%R.

(** plot_helper.py 601-637. [m_pool]: the samples put together. np.any(selected) asks whether some number is not zero. *)
Record mean := mkMean { m_pool : list nat; m_style : style; m_refs : refs }.
Definition plot_pp_mean (selected : list nat) (r : refs) (k : style) : mean :=
  mkMean (if existsb (fun i => negb (Nat.eqb i 0)) selected then selected else seq 0 (w_draws w)) k r.

Fixpoint put_axis (axes : list axis) (n : nat) (a : axis) : list axis :=
  match axes, n with
  | [], _ => []
  | _ :: l, O => a :: l
  | b :: l, S n => b :: put_axis l n a
  end.
Definition floor (x : R) : R := IZR (Int_part x).
Definition ceil (x : R) : R := (- floor (- x))%R.
(** 551-598. [axes]: all axes that exist; [fig]: those of the figure, by position. The limits are set on every axis of the
    figure; without any drawn sample they are infinite and set_xlim raises ValueError. *)
Definition plot_pp_samples (axes : list axis) (fig : list nat) (batch : list nat) (r : refs) (k : style) (sharex : bool) : res (list axis) :=
  let drawn := combine fig batch in
  let axes := fold_left (fun axes p => put_axis axes (fst p) (mkAxis (Sample (snd p) k r) (extent (snd p) k r))) drawn axes in
  if sharex then
    match map (fun p => extent (snd p) k r) drawn with
    | [] => match fig with [] => Ok axes | _ => Err ValueError end
    | e :: es =>
        let low := fold_left (fun m x => Rmin (fst x) m) es (fst e) in
        let high := fold_left (fun m x => Rmax (snd x) m) es (snd e) in
        Ok (fold_left (fun axes n => put_axis axes n (mkAxis (a_content (nth n axes blank)) (floor low, ceil high))) fig axes)
    end
  else Ok axes.
(** 552, 555: a square of axes. *)
Definition square (n : nat) : nat := Nat.sqrt_up n * Nat.sqrt_up n.

Record screen := mkScreen {
  c_sess : session;
  c_history : list (list nat);       (* the batches so far, the current one first; not kept by the program *)
  c_axes : list axis; c_own : nat;   (* self.axes are the first [c_own] of them *)
  c_fig : list nat;                  (* the axes in the figure *)
  c_mean : mean;
  c_style : style; c_sharex : bool; c_text : text; c_refs : refs }.
Definition c_batch (c : screen) : list nat := hd [] (c_history c).
Definition titled (s : session) (axes : list axis) : session :=
  mkSession (s_shown s) (s_selected s) (s_choices s) (s_distances s) (map title axes) (s_clicked s).

(** ppa.py 71-92, 177-197. plt.subplots(0, 0) raises ValueError. *)
Definition opening (target : bool) (references : refs) : option (res screen) :=
  match initialize_subsamples (w_draws w) (w_order w) (w_target_order w) (w_target_distance w) (w_lo w) (w_hi w) (w_b0 w) (w_b1 w) (w_below w) (w_pick w)
          target (mkSession [] [] [] [] [] []) with
  | None => None
  | Some (Err e) => Some (Err e)
  | Some (Ok (batch, s)) =>
      match batch with
      | [] => Some (Err ValueError)
      | _ => let n := square (List.length batch) in
             Some (do axes <- plot_pp_samples (repeat blank n) (seq 0 n) batch references Pdf true;
                   Ok (mkScreen (titled s axes) [batch] axes n (seq 0 n) (plot_pp_mean (s_selected s) references Pdf) Pdf true (write references) references))
      end
  end.
(** 353-386. The clicked axes' titles are read, all own axes are cleared if any was clicked; fig.clf() takes the axes out of
    the figure. The captions of the figure are not modelled. *)
Definition carry (shuffle : list nat -> list nat) (c : screen) : option (res screen) :=
  match carry_of w shuffle (c_sess c) with
  | None => None
  | Some (Err e) => Some (Err e)
  | Some (Ok (batch, s)) =>
      let axes := match s_clicked (c_sess c) with
                  | [] => c_axes c
                  | _ => (repeat blank (c_own c) ++ skipn (c_own c) (c_axes c))%list
                  end in
      let m := plot_pp_mean (s_selected s) (c_refs c) (c_style c) in
      match batch with
      | [] => Some (Ok (mkScreen (titled s axes) (batch :: c_history c) axes (c_own c) [] m (c_style c) (c_sharex c) (c_text c) (c_refs c)))
      | _ => Some (do axes <- plot_pp_samples axes (c_fig c) batch (c_refs c) (c_style c) (c_sharex c);
                   Ok (mkScreen (titled s axes) (batch :: c_history c) axes (c_own c) (c_fig c) m (c_style c) (c_sharex c) (c_text c) (c_refs c)))
      end
  end.
(** 100-127: any change of a widget reads the references anew and draws everything anew. *)
Definition redraw (c : screen) (k : style) (sharex : bool) (t : text) : res screen :=
  let r := match literal t with Some r => r | None => nothing end in
  do axes <- plot_pp_samples (c_axes c) (c_fig c) (c_batch c) r k sharex;
  Ok (mkScreen (titled (c_sess c) axes) (c_history c) axes (c_own c) (c_fig c) (plot_pp_mean (s_selected (c_sess c)) r k) k sharex t r).
(** 388-404: fig.clf(), then plt.text makes a new axis. Simplified: the current figure of pyplot is taken to be this one (it is
    the one last clicked), and the text itself is not kept. With at most four samples only a caption is set. *)
Definition return_prior (c : screen) : screen :=
  if Nat.ltb 4 (List.length (s_selected (c_sess c))) then
    let axes := (c_axes c ++ [mkAxis Words (0, 1)%R])%list in
    mkScreen (titled (c_sess c) axes) (c_history c) axes (c_own c) [List.length (c_axes c)] (c_mean c) (c_style c) (c_sharex c) (c_text c) (c_refs c)
  else c.

Inductive act := Touch (axis : nat) | More (shuffle : list nat -> list nat) | Style (k : style) | Share (b : bool) | Write (t : text) | Return.
Definition step (c : screen) (a : act) : option (res screen) :=
  match a with
  | Touch n => Some (Ok (if mem n (c_fig c)
                         then mkScreen (click n (c_sess c)) (c_history c) (c_axes c) (c_own c) (c_fig c) (c_mean c) (c_style c) (c_sharex c) (c_text c) (c_refs c)
                         else c))
  | More sh => carry sh c
  | Style k => Some (redraw c k (c_sharex c) (c_text c))
  | Share b => Some (redraw c (c_style c) b (c_text c))
  | Write t => Some (redraw c (c_style c) (c_sharex c) t)
  | Return => Some (Ok (return_prior c))
  end.
Fixpoint steps (c : screen) (l : list act) : option (res screen) :=
  match l with
  | [] => Some (Ok c)
  | a :: l => match step c a with Some (Ok c) => steps c l | r => r end
  end.
Definition show (target : bool) (references : refs) (l : list act) : option (res screen) :=
  match opening target references with Some (Ok c) => steps c l | r => r end.
End Screen.
