(** Model of preliz/internal/citations.py. Texts are bytes: the only places where a character that is not ASCII matters to the
    patterns is as one more character of a key or of a body. The file reference.bib is [content]; its path (27) and its
    encoding are left out. A Python set yields its elements in an order that changes from one process to the next: [order]. *)
From Coq Require Import List Bool Ascii String Arith.
From Verif Require Import Base TextModel PplModel ReModel.
Import ListNotations.
Open Scope list_scope.

Definition c_tick : ascii := "`"%char.
(** citations.py 31: r"@.*?\{(.*?),", without re.DOTALL *)
Definition all_keys : re := Cat (lit (txt "@")) (Cat (Many false dot) (Cat (lit (txt "{")) (Cat (Group 1 (Many false dot)) (lit (txt ","))))).
(** citations.py 37: r":(?:cite|footcite):[tp]:`(.*?)`" *)
Definition cited : re :=
  Cat (lit (txt ":")) (Cat (Or (lit (txt "cite")) (lit (txt "footcite"))) (Cat (lit (txt ":"))
    (Cat (Chr (fun c => Ascii.eqb c "t" || Ascii.eqb c "p")) (Cat (lit [":"%char; c_tick]) (Cat (Group 1 (Many false dot)) (lit [c_tick])))))).
(** citations.py 54: rf"(@\w+\{{\s*{key}\s*,.*?\n\}})" with re.DOTALL, for a key without characters that mean something else in
    a pattern. *)
Definition entry_of (key : text) : re :=
  Group 1 (Cat (lit (txt "@")) (Cat (some is_word) (Cat (lit (txt "{")) (Cat (any is_space) (Cat (lit key) (Cat (any is_space)
    (Cat (lit (txt ",")) (Cat (Many false (Chr (fun _ => true))) (lit [c_newline; "}"%char]))))))))).

(** citations.py 50-56: [match.group(1)] of no match is an AttributeError. *)
Fixpoint refs (content : text) (keys : list text) : res (list text) :=
  match keys with
  | [] => Ok []
  | key :: r => match search (entry_of key) content with
                | None => Err AttributeError
                | Some m => do rs <- refs content r; Ok (group m 1 :: rs)
                end
  end.
Fixpoint join_nl (l : list text) : text :=
  match l with [] => [] | [x] => x | x :: r => x ++ c_newline :: join_nl r end.
Definition citation_bibtex (content : text) (keys : list text) : res text := do rs <- refs content keys; Ok (join_nl rs).

(** The argument: None, a string, a list of objects with their docstrings (None for those without), or an object that cannot
    be iterated over. *)
Inductive request := Default | Word (s : text) | Methods (docs : list (option text)) | NotIterable.
(** citations.py 35-38; re.findall of a docstring that is None is a TypeError. *)
Fixpoint keys_cited (docs : list (option text)) : res (list text) :=
  match docs with
  | [] => Ok []
  | None :: _ => Err TypeError
  | Some d :: r => do ks <- keys_cited r; Ok (map (fun m => group m 1) (finditer cited d) ++ ks)
  end.
(** citations.py 30-38, before duplicates are dropped. The characters of a string are strings, whose docstring is [str_doc]. *)
Definition keys_of (content str_doc : text) (methods : request) : res (list text) :=
  match methods with
  | Default => Ok [txt "PreliZ"; txt "Icazatti2023"]
  | Word s => if text_eqb s (txt "all") then Ok (map (fun m => group m 1) (finditer all_keys content))
              else keys_cited (map (fun _ => Some str_doc) s)
  | Methods docs => keys_cited docs
  | NotIterable => Err TypeError
  end.
(** What the caller gets, or what the file holds while None is returned. *)
Inductive answer := Returned (t : text) | Saved (path t : text).
(** citations.py 5-47. [filepath] is used if it is not empty. *)
Definition citations (content str_doc : text) (order : list text -> list text) (methods : request) (filepath : option text) (format_type : text)
    : res answer :=
  do keys <- keys_of content str_doc methods;
  if text_eqb format_type (txt "bibtex")
  then do t <- citation_bibtex content (order keys);
       match filepath with Some (c :: p) => Ok (Saved (c :: p) t) | _ => Ok (Returned t) end
  else Err ValueError.
