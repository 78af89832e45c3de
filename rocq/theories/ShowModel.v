(** Model of how distributions and the catalog are shown: preliz/distributions/distributions.py 42-114 (_get_name,
    _get_description, __repr__, _repr_html_), distributions_multivariate.py 22-33 (__repr__) and catalog.py 221-256
    (__repr__, _repr_html_). Text is a list of ASCII characters as in TextModel. How a number is written is a parameter. *)
From Coq Require Import List Bool Ascii String Arith.
From Verif Require Import Base TextModel CatModel.
Import ListNotations.
Open Scope list_scope.

Definition tx (s : string) : text := list_ascii_of_string s.

(** sep.join(pieces) *)
Fixpoint join (sep : text) (l : list text) : text :=
  match l with [] => [] | [x] => x | x :: r => x ++ sep ++ join sep r end.

(** s.strip(", "): commas and blanks are removed from both ends, in any order and number. *)
Definition comma_or_blank (c : ascii) : bool := (Ascii.eqb c ","%char || Ascii.eqb c " "%char)%bool.
Fixpoint drop_left (p : ascii -> bool) (s : text) : text :=
  match s with c :: r => if p c then drop_left p r else s | [] => [] end.
Definition strip_of (p : ascii -> bool) (s : text) : text := rev (drop_left p (rev (drop_left p s))).

(** What a distribution is made of: an instance of a class, a modifier with its base distribution ([self.dist]), or a mixture
    with the list of its components ([self.dist]). *)
Inductive form := Plain (c : text) | Truncating (d : form) | Censoring (d : form) | Hurdling (d : form) | Mixing (l : list form).
(** [d.__class__.__name__] *)
Definition class_text (d : form) : text :=
  match d with
  | Plain c => c
  | Truncating _ => tx "Truncated"
  | Censoring _ => tx "Censored"
  | Hurdling _ => tx "Hurdle"
  | Mixing _ => tx "Mixture"
  end.
(** [dict.fromkeys(...)]: the first occurrence of each. *)
Fixpoint from_keys (seen l : list text) : list text :=
  match l with
  | [] => []
  | x :: r => if existsb (text_eqb x) seen then from_keys seen r else x :: from_keys (x :: seen) r
  end.
(** distributions.py 42-49. *)
Definition get_name (d : form) : text :=
  match d with
  | Plain c => c
  | Truncating b => tx "Truncated" ++ class_text b
  | Censoring b => tx "Censored" ++ class_text b
  | Hurdling b => tx "Hurdle" ++ class_text b
  | Mixing l => tx "Mixture" ++ List.concat (from_keys [] (map class_text l))
  end.

Section Show.
Context {V : Type}.
(** f"{v:.3g}" and f"{v:.2g}". *)
Variables fmt3 fmt2 : V -> text.
(** A parameter: absent, a number, or a one-dimensional array (lists and tuples included). Simplification: arrays of more
    dimensions, which cannot be formatted, are left out. *)
Inductive pval := PNone | PNum (v : V) | PArr (l : list V).

(** distributions.py 55-61, one parameter. Formatting None with .3g is a TypeError. *)
Definition item (n : text) (v : pval) : res text :=
  match v with
  | PNone => Err TypeError
  | PNum x => Ok (n ++ tx "=" ++ fmt3 x ++ tx ", ")
  | PArr l => Ok (n ++ tx "=[" ++ strip_of comma_or_blank (List.concat (map (fun x => fmt3 x ++ tx ", ") l)) ++ tx "], ")
  end.
Fixpoint items (names : list text) (vals : list pval) : res (list text) :=
  match names, vals with
  | n :: ns, v :: vs => do x <- item n v; do r <- items ns vs; Ok (x :: r)
  | _, _ => Ok []
  end.

(** A distribution as far as it is shown. [o_mean] and [o_std] are what the methods return or raise. *)
Record obj := mkObj {
  o_form : form;
  o_frozen : bool;
  o_names : list text;
  o_params : list pval;
  o_kind : text;
  o_support : text;
  o_mean : res V;
  o_std : res V;
  o_parametrizations : option (list (list text)) }.

(** distributions.py 51-63. *)
Definition get_description (d : obj) : res text :=
  if o_frozen d then do l <- items (o_names d) (o_params d); Ok (strip_of comma_or_blank (List.concat l)) else Ok [].
(** distributions.py 65-69. *)
Definition repr (d : obj) : res text :=
  if o_frozen d then do s <- get_description d; Ok (get_name (o_form d) ++ tx "(" ++ s ++ tx ")")
  else Ok (get_name (o_form d)).

(** distributions.py 80-107: the rows of the table, as label and content. [except Exception: pass] leaves a row out. *)
Definition html_rows (d : obj) : list (text * text) :=
  [(tx "Kind", o_kind d); (tx "Support", o_support d)] ++
  (if o_frozen d then
     match o_mean d with Ok m => [(tx "Mean", fmt2 m)] | Err _ => [] end ++
     match o_std d with Ok s => [(tx "Std", fmt2 s)] | Err _ => [] end
   else []) ++
  match o_parametrizations d with
  | Some (p :: ps) => [(tx "Parametrizations", join (tx ", ") (map (fun q => tx "(" ++ join (tx ", ") q ++ tx ")") (p :: ps)))]
  | _ => []
  end.
Definition row (r : text * text) : text :=
  tx "<tr><td style='text-align:right;padding-right:10px'><i>" ++ fst r ++ tx "</i></td><td>" ++ snd r ++ tx "</td></tr>".
(** distributions.py 71-114. *)
Definition repr_html (d : obj) : res text :=
  do desc <- get_description d;
  let name := get_name (o_form d) in
  let summary := if o_frozen d then tx "<b>" ++ name ++ tx "</b>(" ++ desc ++ tx ")" else tx "<b>" ++ name ++ tx "</b>" in
  Ok (tx "<details><summary>" ++ summary ++ tx "</summary>" ++ tx "<table style='margin-left:20px;margin-top:5px'>" ++
      List.concat (map row (html_rows d)) ++ tx "</table></details>").

(** distributions_multivariate.py 22-33; [fmt_round v] is str(np.round(v, 2)). Codes 27: the escape character. *)
Variable fmt_round : list V -> text.
Fixpoint mv_items (names : list text) (vals : list (list V)) : list text :=
  match names, vals with
  | n :: ns, v :: vs => (n ++ tx "=" ++ fmt_round v ++ tx ",") :: mv_items ns vs
  | _, _ => []
  end.
Definition escape : text := ["027"%char].
Definition mv_repr (cls : text) (frozen : bool) (names : list text) (vals : list (list V)) : text :=
  if frozen then
    escape ++ tx "[1m" ++ cls ++ escape ++ tx "[0m" ++ tx "(" ++
      strip_of (fun c => Ascii.eqb c ","%char) (List.concat (mv_items names vals)) ++ tx ")"
  else cls.
End Show.
Arguments pval : clear implicits.
Arguments obj : clear implicits.

(** What the constructors leave in [params] and [is_frozen]: hurdle.py 50-75, truncated.py 48-76 (censored.py 51-80 alike); a
    modifier is defined as soon as the parameters of the base are, all_not_none( *dist_params ). Missing bounds are infinite,
    a missing psi stays None. *)
Section Construct.
Context {V : Type}.
Variables minus_inf plus_inf : V.
Definition is_none (p : pval V) : bool := match p with PNone => true | _ => false end.
Definition or_else (p : pval V) (v : V) : pval V := match p with PNone => PNum v | _ => p end.
Definition hurdle_obj (base : obj V) (psi : pval V) : obj V :=
  mkObj (Hurdling (o_form base)) (forallb (fun p => negb (is_none p)) (o_params base))
    (o_names base ++ [tx "psi"]) (o_params base ++ [psi]) (o_kind base) (o_support base) (Err AttributeError) (Err AttributeError) None.
Definition truncated_obj (base : obj V) (lower upper : pval V) : obj V :=
  mkObj (Truncating (o_form base)) (forallb (fun p => negb (is_none p)) (o_params base))
    (o_names base ++ [tx "lower"; tx "upper"]) (o_params base ++ [or_else lower minus_inf; or_else upper plus_inf])
    (o_kind base) (o_support base) (Err AttributeError) (Err AttributeError) None.
End Construct.

(* ---------------- catalog ---------------- *)
Section Catalog.
Variable show : nat -> text.
Definition names_of (l : list cls) : list text := map (fun c => tx (class_name c)) l.
Definition group_lines (label : text) (l : list cls) : list text :=
  [label ++ tx " (" ++ show (List.length (names_of l)) ++ tx "):"; tx "  " ++ join (tx ", ") (names_of l)].
Definition newline : text := ["010"%char].
(** catalog.py 221-236. *)
Definition catalog_repr : text :=
  join newline
    ([tx "PreliZ Distributions"; List.concat (repeat (tx "=") 50)] ++
     group_lines (tx "Continuous") all_continuous ++
     group_lines (newline ++ tx "Discrete") all_discrete ++
     group_lines (newline ++ tx "Multivariate") all_continuous_multivariate ++
     group_lines (newline ++ tx "Modifiers") all_modifiers).
(** catalog.py 238-256. *)
Definition html_group (label : text) (l : list cls) (last : text) : text :=
  tx "<b>" ++ label ++ tx "</b> (" ++ show (List.length (names_of l)) ++ tx "): " ++ join (tx ", ") (names_of l) ++ last.
Definition catalog_html : text :=
  tx "<div style='font-family: monospace'>" ++ tx "<b>PreliZ Distributions</b><br><br>" ++
  html_group (tx "Continuous") all_continuous (tx "<br><br>") ++
  html_group (tx "Discrete") all_discrete (tx "<br><br>") ++
  html_group (tx "Multivariate") all_continuous_multivariate (tx "<br><br>") ++
  html_group (tx "Modifiers") all_modifiers [] ++ tx "</div>".
End Catalog.
