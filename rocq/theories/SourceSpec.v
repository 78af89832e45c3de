(** Vocabulary for the source of a model function: lines of code, some of which assign a distribution to a name, and a final return. *)
From Coq Require Import List Bool Ascii String Arith ZArith.
From Verif Require Import Base FamModel TextModel PplModel CatModel.
Import ListNotations.
Open Scope list_scope.

Definition name_of (D : cls) : text := txt (class_name D).
Definition is_name (n : text) : Prop := exists D, n = name_of D.
(** No name of a distribution occurs in [t]. *)
Definition silent (t : text) : Prop := forall a n b, is_name n -> t <> a ++ n ++ b.
(** In [before] followed by the name of [D], no name of a distribution starts before that of [D] does. *)
Definition leads (before : text) (D : cls) : Prop := forall a b n c, is_name n -> before = a ++ b -> b <> [] -> b ++ name_of D <> n ++ c.
Definition plain (t : text) : Prop := ~ In c_newline t /\ ~ In "#"%char t.
Definition no_parens (t : text) : Prop := ~ In c_open t /\ ~ In c_close t.
(** Parentheses balanced and at most one inside another. *)
Inductive shallow : text -> Prop :=
| shallow_flat t : no_parens t -> shallow t
| shallow_pair t u r : no_parens t -> no_parens u -> shallow r -> shallow (t ++ c_open :: u ++ c_close :: r).

(** A line without its comment: either no distribution occurs in it, or it is [var = prefix D(args) tail]. *)
Inductive line := Code (t : text) | Assign (indent var prefix : text) (D : cls) (args tail : text).
Definition good_line (l : line) : Prop :=
  match l with
  | Code t => plain t /\ silent t
  | Assign indent var prefix D args tail =>
      forallb is_space indent = true /\ plain indent /\ forallb is_word var = true /\ var <> [] /\ plain prefix /\
      leads (indent ++ var ++ txt " = " ++ prefix) D /\ shallow args /\ ~ In "#"%char args /\ plain tail /\ silent tail
  end.
Definition show_line (l : line) : text :=
  match l with
  | Code t => t
  | Assign indent var prefix D args tail => indent ++ var ++ txt " = " ++ prefix ++ name_of D ++ c_open :: args ++ c_close :: tail
  end.
(** A comment: nothing, or a hash and the rest of the line. *)
Definition good_comment (c : text) : Prop := c = [] \/ exists t, c = "#"%char :: t /\ ~ In c_newline t.
Fixpoint show (ls : list (line * text)) : text :=
  match ls with [] => [] | (l, c) :: r => show_line l ++ c ++ c_newline :: show r end.
(** The text of a function: its lines and the final return of its variables. *)
Fixpoint commas (vs : list text) : text :=
  match vs with [] => [] | [v] => v | v :: r => v ++ txt ", " ++ commas r end.
Definition program (ls : list (line * text)) (indent : text) (vs : list text) : text := show ls ++ indent ++ txt "return " ++ commas vs ++ [c_newline].
(** The distributions assigned, in order. *)
Fixpoint assigned (ls : list (line * text)) : list (text * cls) :=
  match ls with
  | [] => []
  | (Assign _ v _ D _ _, _) :: r => (v, D) :: assigned r
  | (Code _, _) :: r => assigned r
  end.
(** Everything from a hash to the end of its line is left out. *)
Fixpoint uncomment (inside : bool) (t : text) : text :=
  match t with
  | [] => []
  | c :: r => if Ascii.eqb c c_newline then c :: uncomment false r
              else if inside || Ascii.eqb c "#"%char then uncomment true r else c :: uncomment false r
  end.
(** The words of a text: its longest runs of letters, digits and underscores. *)
Fixpoint words_from (w t : text) : list text :=
  match t with
  | [] => match w with [] => [] | _ => [w] end
  | c :: r => if is_word c then words_from (w ++ [c]) r else match w with [] => words_from [] r | _ => w :: words_from [] r end
  end.
Definition words (t : text) : list text := words_from [] t.

(* ---------------------------------------------------------------- arguments and the parameters they use *)
(** [v] is the first word of [t] that is a parameter. *)
Definition first_param (params : list text) (t v : text) : Prop :=
  exists l r, words t = l ++ v :: r /\ In v params /\ forall w, In w l -> ~ In w params.
Definition identifier (v : text) : Prop := forallb is_word v = true /\ match v with [] => False | c :: _ => (code c < 48 \/ 57 < code c)%nat end.
Definition stars : text := txt "**".
(** What an argument says about the parameters: nothing, or the parameter that it uses and the function or power applied to it. *)
Inductive uses (params : list text) : text -> option (option text * text) -> Prop :=
| uses_plain v : In v params -> uses params v (Some (None, v))
| uses_call path f inner v :
    (path = [] \/ exists q, path = q ++ txt ".") -> no_parens path -> no_parens f -> ~ In "."%char f ->
    (forall a b, path ++ f ++ c_open :: inner <> a ++ stars ++ b) ->
    first_param params (path ++ f ++ c_open :: inner) v -> uses params (path ++ f ++ c_open :: inner) (Some (Some f, v))
| uses_power base power v :
    ~ In "*"%char base -> ~ In "*"%char power -> strip power = power ->
    first_param params (base ++ stars ++ power) v -> uses params (base ++ stars ++ power) (Some (Some power, v))
| uses_none t : (forall w, In w (words t) -> ~ In w params) -> uses params t None.
(** The uses of the parameters in the arguments of [D], with their positions. *)
Fixpoint numbered (D : cls) (i : Z) (us : list (option (option text * text))) : list (text * (cls * Z * option text)) :=
  match us with
  | [] => []
  | None :: r => numbered D (i + 1) r
  | Some (f, v) :: r => (v, (D, i, f)) :: numbered D (i + 1) r
  end.
(** [start] is the position given to the first argument. *)
Definition line_uses (params : list text) (start : Z) (l : line * text) (out : list (text * (cls * Z * option text))) : Prop :=
  match fst l with
  | Code _ => out = []
  | Assign _ _ _ D args _ => exists items us, items <> [] /\ args = commas items /\ Forall (fun i => ~ In c_comma i /\ strip i = i) items /\
                               Forall2 (uses params) items us /\ out = numbered D start us
  end.
Definition last_use {A} (p : text) (us : list (text * A)) : option A :=
  match find (fun u => text_eqb (fst u) p) (rev us) with Some u => Some (snd u) | None => None end.
