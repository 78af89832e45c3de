(** Model of the plots of MvNormal and Dirichlet: preliz/internal/plot_helper_multivariate.py (plot_dirichlet, plot_mvnormal,
    joint_normal, DirichletOnSimplex.plot), the plot methods and plot_interactive of
    preliz/distributions/continuous_multivariate.py, and the methods that preliz/distributions/distributions_multivariate.py
    gives to both. What is drawn on one panel is that of CurveModel.v; the dot and lines of pointinterval, colours, sizes and
    the base line are left out. *)
From Coq Require Import List Bool String Reals ZArith.
From Verif Require Import Base XR RLists LawModel ModModel CurveModel GeoModel MvModel.
Import ListNotations.
Local Open Scope R_scope.
Local Open Scope string_scope.
Local Open Scope list_scope.

(** The argument xy_lim. *)
Inductive limits := Auto | Both | Given (x y : xr * xr).
(** One axes: what is drawn and the limits that are set. *)
Record panel := { shapes : list shape; x_limits : option (xr * xr); y_limits : option (xr * xr) }.
(** What happened: the panels completed, and the exception, if any, that ended the call. *)
Definition outcome := (list panel * res unit)%type.

(** plot_helper_multivariate.py 147-189 and 308-350: the plot of one marginal; support is None for the plots that have no
    such argument. xvals(None) is a ValueError (distributions.py 620-621). *)
Definition draw (what : string) (m : methods) (support : option support_arg) : res (list shape) :=
  let on f := match support with Some s => f s | None => Err ValueError end in
  if String.eqb what "pdf" then on (plot_pdf Ordinary m)
  else if String.eqb what "cdf" then on (plot_cdf m)
  else if String.eqb what "ppf" then Ok (plot_ppf m)
  else if String.eqb what "sf" then on (plot_sf m)
  else if String.eqb what "isf" then Ok (plot_isf m)
  else Ok [].
(** Lines 119-121 and 138-146 (281-283 and 299-307): the variables xlim and ylim; None is a variable with no value. *)
Definition limits_of (what : string) (m : methods) (lim : limits) : res (option (xr * xr) * option (xr * xr)) :=
  let around top := (xmul (xneg top) (Fin 0.075), xmul top (Fin 1.5)) in
  match lim with
  | Auto => Ok (None, None)
  | Given x y => Ok (Some x, Some y)
  | Both =>
      do xlim <- finite_endpoints m (Name "full");
      do xs <- xvals m (Name "restricted");
      if String.eqb what "pdf" then do top <- np_max (map (m_pdf m) xs); Ok (Some xlim, Some (around top))
      else if String.eqb what "ppf" then Ok (Some xlim, Some (around (m_ppf m (Fin 0.999))))
      else Ok (Some xlim, None)
  end.
(** Lines 190-193 (351-354): setting limits from a variable with no value is a NameError (UnboundLocalError). *)
Definition set_limits (wanted : bool) (v : option (xr * xr)) : res (option (xr * xr)) :=
  if wanted then match v with Some l => Ok (Some l) | None => Err NameError end else Ok None.
Definition is_auto (lim : limits) : bool := match lim with Auto => true | _ => false end.
(** Lines 136-193 (297-354) for one marginal. *)
Definition plot_marginal (what : string) (support : option support_arg) (lim : limits) (m : methods) : res panel :=
  do v <- limits_of what m lim;
  do s <- draw what m support;
  do x <- set_limits (negb (is_auto lim) && negb (String.eqb what "ppf")) (fst v);
  do y <- set_limits (negb (is_auto lim) && negb (String.eqb what "cdf")) (snd v);
  Ok {| shapes := s; x_limits := x; y_limits := y |}.
Fixpoint plot_each (what : string) (support : option support_arg) (lim : limits) (ms : list methods) : outcome :=
  match ms with
  | [] => ([], Ok tt)
  | m :: r => match plot_marginal what support lim m with
              | Err e => ([], Err e)
              | Ok p => let '(ps, e) := plot_each what support lim r in (p :: ps, e)
              end
  end.
(** Lines 128-130 (289-291): how many axes there are. plt.subplots(1, 1) returns one axes, which has no method flatten, and
    plt.subplots(1, 0) is a ValueError. *)
Definition count_axes (dim : nat) (axes : option nat) : res nat :=
  match axes with
  | Some n => Ok n
  | None => match dim with
            | O => Err ValueError
            | S O => Err AttributeError
            | _ => Ok (fst (get_cols_rows dim) * snd (get_cols_rows dim))%nat
            end
  end.
(** Lines 124-196 (286-356). [axes] is the number of axes given with ax, if any; [title] is legend == "title". The name fig
    has no value when axes are given. *)
Definition plot_marginals (what : string) (support : option support_arg) (lim : limits) (title : bool) (axes : option nat) (ms : list methods) : outcome :=
  match count_axes (List.length ms) axes with
  | Err e => ([], Err e)
  | Ok n =>
      let '(ps, e) := plot_each what support lim (firstn n ms) in
      match e with
      | Err _ => (ps, e)
      | Ok _ => (ps, if title then match axes with Some _ => Err NameError | None => Ok tt end else Ok tt)
      end
  end.
(** Lines 198-209 (358-367). [joint] is the joint plot, available in one dimension only. *)
Definition plot_multi (joint_dim : nat) (joint : res unit) (marginals : bool) (what : string) (support : option support_arg) (lim : limits)
    (title : bool) (axes : option nat) (ms : list methods) : outcome :=
  if marginals then plot_marginals what support lim title axes ms
  else if Nat.eqb (List.length ms) joint_dim then ([], joint) else ([], Err ValueError).

(** plot_helper_multivariate.py 39-50 and 69-97 (DirichletOnSimplex.plot): the joint plot of a Dirichlet from the values of its pdf on the mesh. Nothing is drawn (a warning)
    if they are all 0. Contour levels must increase (matplotlib raises ValueError); all of them equal are caught. *)
Definition increasing (l : list R) : bool :=
  (fix go x l := match l with [] => true | y :: r => Rltb x y && go y r end) (List.hd 0 l - 1) l.
Inductive drawing := Nothing | Filled | Lines (levels : list R).
Definition joint_dirichlet (sort : list R -> list R) (pvals : list R) : res drawing :=
  if forallb (fun p => Reqb p 0) pvals then Ok Nothing
  else
    do levels <- find_hdi_contours sort pvals [0.1; 0.5; 0.94];
    if forallb (fun c => Reqb c (List.hd 0 levels)) levels then Ok Filled
    else if increasing levels then Ok (Lines levels) else Err ValueError.

(** Lines 212-217: np.mgrid[lo:hi:0.01] has ceil((hi - lo) / 0.01) points. *)
Definition mgrid (lo hi : R) : list R :=
  map (fun i => lo + INR i * 0.01) (seq 0 (Z.to_nat (- Int_part (- ((hi - lo) / 0.01))))).
(** Lines 212-225. [var] is the diagonal of the covariance. ax.contour is a TypeError on a grid with fewer than two points
    one way. *)
Definition joint_normal (sort : list R -> list R) (pdf : R -> R -> R) (mu var : R * R) : res (list R * list R * list R) :=
  let xs := mgrid (fst mu - 3 * sqrt (fst var)) (fst mu + 3 * sqrt (fst var)) in
  let ys := mgrid (snd mu - 3 * sqrt (snd var)) (snd mu + 3 * sqrt (snd var)) in
  do levels <- find_hdi_contours sort (flat_map (fun x => map (pdf x) ys) xs) [0.1; 0.5; 0.94];
  if Nat.leb 2 (List.length xs) && Nat.leb 2 (List.length ys)
  then if increasing levels then Ok (xs, ys, levels) else Err ValueError
  else Err TypeError.

(** The five plot methods: continuous_multivariate.py 147-159, 202-214, 253-265, 308-320, 359-371 and 639-651, 694-706, 745-757,
    800-812, 851-863. xy_lim is left at "auto". [marginals] is an argument of plot_pdf only. *)
Inductive plot_method := Ppdf (marginals : bool) | Pcdf | Pppf | Psf | Pisf.
Definition plot_as (joint_dim : nat) (joint : res unit) (p : plot_method) (support : support_arg) (title : bool) (axes : option nat) (ms : list methods) : outcome :=
  match p with
  | Ppdf marginals => plot_multi joint_dim joint marginals "pdf" (Some support) Auto title axes ms
  | Pcdf => plot_multi joint_dim joint true "cdf" (Some support) Auto title axes ms
  | Pppf => plot_multi joint_dim joint true "ppf" None Auto title axes ms
  | Psf => plot_multi joint_dim joint true "sf" (Some support) Auto title axes ms
  | Pisf => plot_multi joint_dim joint true "isf" None Auto title axes ms
  end.

(** What an interactive plot draws at each position of its sliders: continuous_multivariate.py 442-486 for Dirichlet. [box]
    is the check box of the pdf. *)
Definition interactive_dirichlet (joint : res unit) (kind : string) (box : bool) (lim : limits) (title : bool) (ms : list methods) : outcome :=
  if String.eqb kind "pdf" then plot_multi 3 joint box "pdf" (Some (Name "full")) lim title None ms
  else if String.eqb kind "cdf" then plot_multi 3 joint true "cdf" (Some (Name "full")) lim title None ms
  else if String.eqb kind "ppf" then plot_multi 3 joint true "cdf" None lim title None ms
  else ([], Ok tt).
(** continuous_multivariate.py 935-980 for MvNormal. *)
Definition interactive_mvnormal (joint : res unit) (kind : string) (box : bool) (lim : limits) (title : bool) (ms : list methods) : outcome :=
  if String.eqb kind "pdf" then plot_multi 2 joint box "pdf" (Some (Name "full")) lim title None ms
  else if String.eqb kind "cdf" then plot_multi 2 joint true "cdf" (Some (Name "full")) lim title None ms
  else if String.eqb kind "ppf" then plot_multi 2 joint true "ppf" None lim title None ms
  else ([], Ok tt).
(** continuous_multivariate.py 420-421 and 439-441: the instance at positions [values] of the sliders. params is missing
    before the first values are given. *)
Definition slide_dirichlet (o : dirichlet) (values : list R) : res dirichlet :=
  match dir_rv o with None => Err AttributeError | Some _ => Ok (dir_parametrization dir_blank (Some values)) end.
(** continuous_multivariate.py 912-914 and 932-934. *)
Definition slide_mvnormal {M} (inv : M -> res M) (o : mvnormal M) (values : list R) : res (mvnormal M) :=
  match mv_params o with
  | None => Err AttributeError
  | Some (mu, second) =>
      let '(cov, tau) := match mv_names o with NameCov => (Some second, None) | NameTau => (None, Some second) end in
      let '(_, e) := mv_new inv (Some mu) cov tau in
      do _ <- e;
      let '(o', e) := mv_new inv (Some values) cov tau in
      do _ <- e; Ok o'
  end.

(** distributions_multivariate.py 67-81, 180-198: entropy, rvs, pdf and logpdf are those of the object of scipy, which is None
    before the first values are given. *)
Definition through {P A} (rv : option P) (method : P -> A) : res A := match rv with Some p => Ok (method p) | None => Err AttributeError end.
(** distributions_multivariate.py 123-142 and 152-165. No class defines ppf. *)
Definition multi_endpoints (supp : xr * xr) (support : support_arg) : res (xr * xr) :=
  match support with
  | Pair l u => Ok (l, u)
  | Name s => if negb (xisfinite (fst supp)) || negb (xisfinite (snd supp)) || String.eqb s "restricted" then Err AttributeError else Ok supp
  end.
(** np.linspace(l, u, 1000) where an end is not finite: the numbers start + i * step, and the end itself last. *)
Definition xlinspace (l u : xr) : list xr :=
  map (fun i => xadd (xmul (Fin (INR i)) (xdiv (xsub u l) (Fin 999))) l) (seq 0 999) ++ [u].
Definition multi_xvals (supp : xr * xr) (support : support_arg) : res (list xr) :=
  do ep <- multi_endpoints supp support;
  Ok (match ep with (Fin l, Fin u) => map Fin (linspace l u 1000) | (l, u) => xlinspace l u end).
