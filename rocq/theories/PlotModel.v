(** Model of the top-level plot function, preliz/distributions/plot.py 4-98, of the signatures it calls
    (distributions.py 663-1010, continuous_multivariate.py 96-372 and 588-864) and of the drawing of multivariate
    distributions, preliz/internal/plot_helper_multivariate.py 99-209 and 260-367. A call is the dictionary of its keywords;
    what a univariate method draws is left out. *)
From Coq Require Import List Bool String Reals Arith.
From Verif Require Import Base GeoModel.
Import ListNotations.
Open Scope string_scope.
Open Scope list_scope.

Section Calls.
Context {X : Type}.
(** The values that matter, and any other object. *)
Inductive val := VNone | VBool (b : bool) | VStr (s : string) | VObj (x : X).
Definition keywords := list (string * val).
Fixpoint lookup (k : string) (l : keywords) : option val :=
  match l with [] => None | (k', v) :: r => if String.eqb k k' then Some v else lookup k r end.
Definition has (k : string) (l : keywords) : bool := match lookup k l with Some _ => true | None => false end.
(** dict.pop *)
Definition pop (k : string) (l : keywords) : keywords := filter (fun kv => negb (String.eqb k (fst kv))) l.

(** Parameters with their defaults, and whether there is a **kwargs. *)
Record signature := mkSig { s_params : keywords; s_kwargs : bool }.
(** Binding of a call: the value of each parameter, and what goes into **kwargs; TypeError for an unknown keyword. *)
Definition bind_call (s : signature) (call : keywords) : res (keywords * keywords) :=
  let extra := filter (fun kv => negb (has (fst kv) (s_params s))) call in
  match s_kwargs s, extra with
  | false, _ :: _ => Err TypeError
  | _, _ => Ok (map (fun pd => (fst pd, match lookup (fst pd) call with Some v => v | None => snd pd end)) (s_params s), extra)
  end.
(** f( **a, **b ): TypeError for a keyword in both. *)
Definition call_two (s : signature) (a b : keywords) : res (keywords * keywords) :=
  if existsb (fun kv => has (fst kv) a) b then Err TypeError else bind_call s (a ++ b).

(** plot.py 4-18, without [dist]. *)
Definition plot_sig : signature :=
  mkSig [("kind", VStr "pdf"); ("moments", VNone); ("marginals", VBool true); ("pointinterval", VBool false); ("interval", VNone);
         ("levels", VNone); ("support", VStr "restricted"); ("baseline", VBool true); ("legend", VStr "legend");
         ("figsize", VNone); ("ax", VNone)] true.
(** distributions.py 663-675 (plot_pdf), 745-756 (plot_cdf), 822-832 (plot_ppf), 882-893 (plot_sf), 959-969 (plot_isf). *)
Definition univariate_sig (kind : string) : signature :=
  mkSig ([("moments", VNone); ("pointinterval", VBool false); ("interval", VNone); ("levels", VNone)] ++
         (if existsb (String.eqb kind) ["ppf"; "isf"] then [] else [("support", VStr "restricted")]) ++
         (if String.eqb kind "pdf" then [("baseline", VBool true)] else []) ++
         [("legend", VStr "legend"); ("figsize", VNone); ("ax", VNone)]) true.
(** continuous_multivariate.py 96-107 and 588-599 (plot_pdf), 161-170 and 653-662 (plot_cdf), 216-224 and 708-716 (plot_ppf),
    267-276 and 759-768 (plot_sf), 322-330 and 814-822 (plot_isf). *)
Definition multivariate_sig (kind : string) : signature :=
  mkSig ((if String.eqb kind "pdf" then [("marginals", VBool true)] else []) ++
         [("pointinterval", VBool false); ("interval", VNone); ("levels", VNone)] ++
         (if existsb (String.eqb kind) ["ppf"; "isf"] then [] else [("support", VStr "full")]) ++
         (if String.eqb kind "pdf" then [("baseline", VBool true)] else []) ++
         [("legend", VStr "title"); ("figsize", VNone); ("ax", VNone)]) false.
Definition method_sig (multivariate : bool) (kind : string) : signature :=
  if multivariate then multivariate_sig kind else univariate_sig kind.
Definition kinds : list string := ["pdf"; "cdf"; "ppf"; "sf"; "isf"].

(** plot.py 70-98: which method is called, and with what. [multivariate]: the class is MvNormal or Dirichlet. *)
Definition plot (multivariate : bool) (call : keywords) : res (string * (keywords * keywords)) :=
  do b <- bind_call plot_sig call;
  let '(args, kwargs) := b in
  let arg k := match lookup k args with Some v => v | None => VNone end in
  match arg "kind" with
  | VStr kind =>
      if existsb (String.eqb kind) kinds then
        let mandatory := map (fun k => (k, arg k))
          ["moments"; "pointinterval"; "interval"; "levels"; "support"; "baseline"; "legend"; "figsize"; "ax"] in
        let mandatory := if String.eqb kind "pdf" then mandatory else pop "baseline" mandatory in
        let mandatory := if existsb (String.eqb kind) ["ppf"; "isf"] then pop "support" mandatory else mandatory in
        let mandatory :=
          if multivariate then
            let m := pop "moments" mandatory in
            if String.eqb kind "pdf" then m ++ [("marginals", arg "marginals")] else m
          else mandatory in
        do c <- call_two (method_sig multivariate kind) mandatory kwargs;
        Ok (kind, c)
      else Err ValueError
  | _ => Err ValueError
  end.

(* ---------------- plot_dirichlet, plot_mvnormal ---------------- *)
(** [ax]: not given, a single axes, or an array of axes. [xy_lim]: "auto", "both" or four numbers. *)
Inductive axes_arg := NoAxes | OneAxes | Axes (n : nat).
Inductive limits := Auto | Both | Manual (x0 x1 y0 y1 : R).
Inductive title := NoTitle | FigureTitle | AxesTitle.
Context {B : Type}.
(** For a marginal distribution: _finite_endpoints("full"), the largest density on xvals("restricted"), ppf(0.999). *)
Variables (endpoints : B -> R * R) (max_pdf max_ppf : B -> R).

Record options := mkOpts { op_pointinterval : val; op_interval : val; op_levels : val; op_support : val; op_baseline : val }.
(** plot_helper_multivariate.py 146-189 and 307-350: the keywords handed to the method of the marginal. *)
Definition marginal_call (representation : string) (o : options) (axis : val) : keywords :=
  let common := [("pointinterval", op_pointinterval o); ("interval", op_interval o); ("levels", op_levels o)] in
  let tail := [("legend", VBool false); ("ax", axis)] in
  if String.eqb representation "pdf" then common ++ [("support", op_support o); ("baseline", op_baseline o)] ++ tail
  else if (String.eqb representation "cdf" || String.eqb representation "sf")%bool then common ++ [("support", op_support o)] ++ tail
  else common ++ tail.

(** What is on the figure: the new grid of axes if one is made, the axes removed, each marginal with the axis and the call that
    draws it, the limits shared by all axes of the grid (the last ones set, because of sharex and sharey), the title. *)
Record drawing := mkDrawing {
  d_grid : option (nat * nat);
  d_removed : list nat;
  d_panels : list (nat * B * keywords);
  d_xlim : option (R * R);
  d_ylim : option (R * R);
  d_title : title }.

Definition last_opt {A} (l : list A) : option A := match rev l with [] => None | x :: _ => Some x end.
(** Lines 113-115 and 130-139: the limits for one marginal, None if the variable is not set. *)
Definition xlim_of (xy : limits) (m : B) : option (R * R) :=
  match xy with Auto => None | Both => Some (endpoints m) | Manual a b _ _ => Some (a, b) end.
Definition ylim_of (xy : limits) (representation : string) (m : B) : option (R * R) :=
  match xy with
  | Auto => None
  | Manual _ _ a b => Some (a, b)
  | Both => if String.eqb representation "pdf" then Some (- max_pdf m * 0.075, max_pdf m * 1.5)%R
            else if String.eqb representation "ppf" then Some (- max_ppf m * 0.075, max_ppf m * 1.5)%R else None
  end.
Definition is_auto (xy : limits) : bool := match xy with Auto => true | _ => false end.

(** plot_helper_multivariate.py 114-196 (plot_dirichlet) and 276-356 (plot_mvnormal): one panel for each marginal. [axis] makes
    the value of an axis from its position. Using an unset variable is a NameError. *)
Definition plot_marginals (axis : nat -> X) (margs : list B) (representation : string) (o : options) (legend : val) (axes : axes_arg)
  (xy : limits) : res drawing :=
  let dim := List.length margs in
  let '(cols, rows) := get_cols_rows dim in
  do n <- match axes with
          | NoAxes => if Nat.eqb (cols * rows) 1 then Err AttributeError else Ok (cols * rows)%nat
          | OneAxes => Err TypeError
          | Axes n => Ok n
          end;
  let drawn := combine (seq 0 n) margs in
  let xl := map (fun im => xlim_of xy (snd im)) drawn in
  let yl := map (fun im => ylim_of xy representation (snd im)) drawn in
  let set_x := (negb (is_auto xy) && negb (String.eqb representation "ppf"))%bool in
  let set_y := (negb (is_auto xy) && negb (String.eqb representation "cdf"))%bool in
  if (set_x && existsb (fun l => match l with None => true | _ => false end) xl)%bool then Err NameError
  else if (set_y && existsb (fun l => match l with None => true | _ => false end) yl)%bool then Err NameError
  else
    let d := mkDrawing (match axes with NoAxes => Some (cols, rows) | _ => None end)
               (seq dim (n - dim))
               (map (fun im => (fst im, snd im, marginal_call representation o (VObj (axis (fst im))))) drawn)
               (if set_x then match last_opt xl with Some l => l | None => None end else None)
               (if set_y then match last_opt yl with Some l => l | None => None end else None)
               NoTitle in
    match legend with
    | VStr "title" => match axes with
                      | NoAxes => Ok (mkDrawing (d_grid d) (d_removed d) (d_panels d) (d_xlim d) (d_ylim d) FigureTitle)
                      | _ => Err NameError
                      end
    | _ => Ok d
    end.

(** Lines 196-206 and 349-358: the joint density, for one number of dimensions only. [flat]: the density is zero on the whole
    triangle (Dirichlet only), nothing is drawn then. *)
Definition plot_joint (joint_dim dim : nat) (flat : bool) (legend : val) (axes : axes_arg) : res (option title) :=
  if Nat.eqb dim joint_dim then
    if flat then Ok None
    else match axes with
         | Axes _ => Err AttributeError
         | _ => Ok (Some (match legend with VStr "title" => AxesTitle | _ => NoTitle end))
         end
  else Err ValueError.
(** [if marginals: ... elif dim == ...]; truth of the value. *)
Definition truth (v : val) : bool := match v with VNone => false | VBool b => b | VStr s => negb (String.eqb s "") | VObj _ => true end.
Definition plot_multivariate (axis : nat -> X) (joint_dim : nat) (flat : bool) (margs : list B) (representation : string) (marginals : val)
  (o : options) (legend : val) (axes : axes_arg) (xy : limits) : res (drawing + option title) :=
  if truth marginals then do d <- plot_marginals axis margs representation o legend axes xy; Ok (inl d)
  else do t <- plot_joint joint_dim (List.length margs) flat legend axes; Ok (inr t).
End Calls.
Arguments val : clear implicits.
Arguments keywords : clear implicits.
Arguments signature : clear implicits.
Arguments options : clear implicits.
Arguments drawing : clear implicits.
