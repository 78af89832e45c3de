(** Model of make_iterable_validator (preliz/internal/rcparams.py 77-95). Text is ASCII, as in TextModel. *)
From Coq Require Import List Bool Ascii String Arith ZArith.
From Verif Require Import Base TextModel.
Import ListNotations.

(** A Python value: None, a text, an ordered iterable (tuple, list, array, dict), a set or frozenset, anything that cannot
    be iterated over. *)
Inductive value := VNone | VText (t : text) | VItems (l : list value) | VSet (l : list value) | VAtom (z : Z).

(** ASCII part of [str.lower]. *)
Definition lower_char (c : ascii) : ascii := if (65 <=? code c) && (code c <=? 90) then ascii_of_nat (code c + 32) else c.
Definition lower_text (t : text) : text := map lower_char t.
Definition text_eqb (a b : text) : bool := if list_eq_dec ascii_dec a b then true else false.
Definition word (s : string) : text := list_ascii_of_string s.
(** The characters of "([ ])" (line 87). *)
Definition bracket (c : ascii) : bool := existsb (Ascii.eqb c) (word "([ ])").
(** [v.strip(chars)]. *)
Fixpoint lstrip_set (p : ascii -> bool) (t : text) : text := match t with c :: r => if p c then lstrip_set p r else t | [] => [] end.
Definition strip_set (p : ascii -> bool) (t : text) : text := rev (lstrip_set p (rev (lstrip_set p t))).
(** Line 87: what is between commas, without the pieces that are blank. *)
Definition pieces (t : text) : list text :=
  map (strip_set bracket) (filter (fun v => match strip v with [] => false | _ => true end) (split_on c_comma t)).

Section Validator.
Variables (check : value -> res value) (len : option nat) (allow_none allow_auto : bool).
(** [tuple(scalar_validator(v) for v in value)]: stops at the first exception. *)
Fixpoint check_all (l : list value) : res (list value) :=
  match l with
  | [] => Ok []
  | v :: r => do w <- check v; do ws <- check_all r; Ok (w :: ws)
  end.
(** Lines 88-93. *)
Definition validate_items (v : value) : res value :=
  match v with
  | VItems l =>
      do val <- check_all l;
      match len with
      | Some n => if Nat.eqb (List.length val) n then Ok (VItems val) else Err ValueError
      | None => Ok (VItems val)
      end
  | _ => Err ValueError
  end.
(** Lines 81-93. *)
Definition validate_iterable (v : value) : res value :=
  if allow_none && match v with VNone => true | VText t => text_eqb (lower_text t) (word "none") | _ => false end then Ok VNone
  else match v with
  | VText t => if allow_auto && text_eqb (lower_text t) (word "auto") then Ok (VText (word "auto"))
               else validate_items (VItems (map VText (pieces t)))
  | _ => validate_items v
  end.
End Validator.
