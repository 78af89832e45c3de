(** Model of what the five plots of a univariate distribution draw: preliz/internal/plot_helper.py 128-294 (plot_pdfpmf,
    plot_cdf, plot_ppf, plot_sf, plot_isf) and 681-695 (representations). Labels and styles are in DrawModel.v, the dot and the
    lines below the curve in PointModel.v; colours, ticks and limits of the axes are left out. *)
From Coq Require Import List Bool String Reals ZArith.
From Verif Require Import Base XR LawModel ModModel.
Import ListNotations.
Open Scope R_scope.

(** [Curve]: the points joined by lines. [Steps]: ax.step with where="post". [Dots]: markers only. [Stem]: a vertical line
    from 0. *)
Inductive shape := Curve (points : list (xr * xr)) | Steps (points : list (xr * xr)) | Dots (points : list (xr * xr)) | Stem (x height : xr).

(** distributions.py 632-662. End points that are not finite are reported as an error. *)
Definition xvals (d : methods) (support : support_arg) : res (list xr) :=
  do ep <- finite_endpoints d support;
  match ep with
  | (Fin l, Fin u) => Ok (match kind_of d with
      | Discrete => map (fun z => Fin (IZR z)) (discrete_xvals l u 200)
      | Continuous => map Fin (continuous_xvals l u 1000)
      end)
  | _ => Err ValueError
  end.
Definition graph (f : xr -> xr) (xs : list xr) : list (xr * xr) := map (fun x => (x, f x)) xs.

(** np.insert(x, [0, len(x)], (x[0] - 1, x[-1] + 1)), lines 211-213 and 259-261. *)
Definition extended (xs : list xr) : res (list xr) :=
  match xs with
  | [] => Err IndexError
  | x :: _ => Ok (xsub x (Fin 1) :: xs ++ [xadd (last xs x) (Fin 1)])
  end.
(** Lines 208-221 and 256-269. *)
Definition plot_function (f : xr -> xr) (d : methods) (support : support_arg) : res (list shape) :=
  do xs <- xvals d support;
  match kind_of d with
  | Discrete => do xs <- extended xs; Ok [Steps (graph f xs)]
  | Continuous => Ok [Curve (graph f xs)]
  end.
Definition plot_cdf (d : methods) (support : support_arg) : res (list shape) := plot_function (m_cdf d) d support.
Definition plot_sf (d : methods) (support : support_arg) : res (list shape) := plot_function (sf d) d support.
(** Lines 236-237 and 284-285. *)
Definition plot_ppf (d : methods) : list shape := [Curve (graph (m_ppf d) (map Fin (linspace 0 1 1000)))].
Definition plot_isf (d : methods) : list shape := [Curve (graph (isf d) (map Fin (linspace 0 1 1000)))].

(** np.min and np.max of an array; nan wins. *)
Definition pick (better : xr -> xr -> bool) (a b : xr) : xr :=
  match a, b with NaN, _ | _, NaN => NaN | _, _ => if better b a then b else a end.
Definition np_extreme (better : xr -> xr -> bool) (xs : list xr) : res xr :=
  match xs with [] => Err ValueError | x :: r => Ok (fold_left (pick better) r x) end.
Definition np_min := np_extreme xltb.
Definition np_max := np_extreme (fun a b => xltb b a).

(** The three ways to draw a density. For Censored, the pdf of the distribution that is censored. *)
Inductive style := Ordinary | OfCensored (base_pdf : xr -> xr) | Stems (* Categorical and Bernoulli *).
(** Lines 146-187. For a discrete Censored distribution the style is the ordinary one (line 148). *)
Definition plot_pdf (s : style) (d : methods) (support : support_arg) : res (list shape) :=
  do xs <- xvals d support;
  match kind_of d, s with
  | Continuous, OfCensored base_pdf =>
      let '(lower, upper) := m_supp d in
      do smallest <- np_min xs;
      let stems := if xleb smallest lower
                   then [Stem lower (xmul (base_pdf lower) (Fin 1.5)); Stem upper (xmul (base_pdf upper) (Fin 1.5))] else [] in
      let xs := filter (fun x => negb (xeqb x lower)) xs in
      let xs := filter (fun x => negb (xeqb x upper)) xs in
      Ok (Curve (graph (m_pdf d) xs) :: stems)
  | Continuous, _ => Ok [Curve (graph (m_pdf d) xs)]
  | Discrete, Stems => Ok (Dots (graph (m_pdf d) xs) :: map (fun x => Stem x (m_pdf d x)) xs)
  | Discrete, _ =>
      match xs with
      | [] => Err IndexError
      | x :: _ =>
          let mass := map (m_pdf d) xs in
          do lo <- np_min mass; do hi <- np_max mass;
          match x, last xs x with
          | Fin a, Fin b => Ok [Curve (graph (fun x => np_clip (m_pdf d x) lo hi) (map Fin (linspace a b 1000))); Dots (graph (m_pdf d) xs)]
          | _, _ => Err ValueError
          end
      end
  end.

(** plot_helper.py 681-695: the panel of Roulette and QuartileInt, and a dot at each end of the support that is finite. The
    methods are called with their default support (distributions.py 669 and 751). *)
Definition representations (s : style) (d : methods) (kind_plot : string) : res (list shape) :=
  if String.eqb kind_plot "pdf" then
    do shapes <- plot_pdf s d (Name "restricted");
    Ok (shapes ++ map (fun b => Dots [(b, Fin 0)]) (filter xisfinite [fst (m_supp d); snd (m_supp d)]))
  else if String.eqb kind_plot "cdf" then plot_cdf d (Name "restricted")
  else if String.eqb kind_plot "ppf" then Ok (plot_ppf d)
  else Ok [].
