(** Model of the remaining methods of the RcParams mapping (preliz/internal/rcparams.py): __init__, __getitem__, __len__ and
    the text of print(rcParams). __repr__ (165-175), which only differs in layout and goes through pprint, is not modelled. *)
From Coq Require Import List Bool Ascii String Arith ZArith QArith.
From Verif Require Import Base RcModel.
Import ListNotations.
Open Scope string_scope.

(** rcparams.py 114-117: an empty storage, updated with what is given. *)
Definition rc_init (fos : string -> option pyfloat) (str_of : pyval -> string) (l : list (string * pyval)) : res store :=
  match update fos str_of l [] with (s, None) => Ok s | (_, Some e) => Err e end.
(** rcparams.py 133-135 *)
Definition rc_getitem (s : store) (k : string) : res pyval := match get k s with Some v => Ok v | None => Err KeyError end.
(** rcparams.py 190-192 *)
Definition rc_len (s : store) : nat := List.length s.

Fixpoint blanks (n : nat) : string := match n with O => "" | S n => String " "%char (blanks n) end.
(** format(s, "<22"): to the left, filled with blanks. *)
Definition pad (n : nat) (s : string) : string := s ++ blanks (n - String.length s).
Definition newline : ascii := "010"%char.
Fixpoint join_lines (l : list string) : string :=
  match l with [] => "" | [x] => x | x :: r => x ++ String newline (join_lines r) end.
(** rcparams.py 177-184. The keys are distinct, so sorting the items is sorting by key, as in [items]. *)
Definition rc_str (str_of : pyval -> string) (s : store) : string :=
  join_lines (map (fun kv => pad 22 (fst kv) ++ ": " ++ to_str str_of (snd kv)) (items s)).

(** The lines of an open text file, each with its end of line (rcparams.py 264). *)
Fixpoint file_lines (t : string) : list string :=
  match t with
  | EmptyString => []
  | String c r => if Ascii.eqb c newline then String c "" :: file_lines r
                  else match file_lines r with [] => [String c ""] | x :: l => String c x :: l end
  end.
