(** Model of process_extra, preliz/internal/distribution_helper.py 68-83. Text is a list of ASCII characters (Python's
    \w, strip and float also know other alphabets). float is a parameter: the value, or None for ValueError. *)
From Coq Require Import List Bool Ascii String Arith.
From Verif Require Import Base.
Import ListNotations.

Definition text := list ascii.
Definition code (c : ascii) : nat := nat_of_ascii c.
Definition is_word (c : ascii) : bool :=
  let n := code c in
  ((48 <=? n) && (n <=? 57)) || ((65 <=? n) && (n <=? 90)) || ((97 <=? n) && (n <=? 122)) || (n =? 95).
Definition is_space (c : ascii) : bool := let n := code c in (n =? 32) || ((9 <=? n) && (n <=? 13)) || ((28 <=? n) && (n <=? 31)).
Definition c_open : ascii := "("%char.
Definition c_close : ascii := ")"%char.
Definition c_comma : ascii := ","%char.
Definition c_equal : ascii := "="%char.
Definition c_newline : ascii := "010"%char.

(** str.split(sep) with a one-character separator. *)
Fixpoint split_on (sep : ascii) (s : text) : list text :=
  match s with
  | [] => [[]]
  | c :: r => if Ascii.eqb c sep then [] :: split_on sep r
              else match split_on sep r with [] => [[c]] | p :: ps => (c :: p) :: ps end
  end.
Fixpoint lstrip (s : text) : text := match s with c :: r => if is_space c then lstrip r else s | [] => [] end.
Definition strip (s : text) : text := rev (lstrip (rev (lstrip s))).

(** One attempt of the pattern (\w+)\((.*?)\) at the head of [s]: a maximal run of word characters (a shorter one is
    followed by a word character, not by a parenthesis), an opening parenthesis, then the shortest text without newline
    up to a closing one. *)
Fixpoint take_word (s : text) : text * text :=
  match s with
  | c :: r => if is_word c then let '(w, t) := take_word r in (c :: w, t) else ([], s)
  | [] => ([], [])
  end.
Fixpoint take_until_close (s : text) : option (text * text) :=
  match s with
  | [] => None
  | c :: r => if Ascii.eqb c c_close then Some ([], r)
              else if Ascii.eqb c c_newline then None
              else match take_until_close r with Some (b, t) => Some (c :: b, t) | None => None end
  end.
Definition match_here (s : text) : option (text * text * text) :=
  match take_word s with
  | ([], _) => None
  | (w, c :: r) => if Ascii.eqb c c_open
                   then match take_until_close r with Some (b, t) => Some (w, b, t) | None => None end
                   else None
  | (_, []) => None
  end.
(** re.findall: leftmost matches, each search starting where the previous match ended. [fuel] is the number of characters
    plus one, enough because each step uses up at least one. *)
Fixpoint findall_from (fuel : nat) (s : text) : list (text * text) :=
  match fuel with
  | O => []
  | S n => match match_here s with
           | Some (w, b, t) => (w, b) :: findall_from n t
           | None => match s with [] => [] | _ :: r => findall_from n r end
           end
  end.
Definition findall (s : text) : list (text * text) := findall_from (S (List.length s)) s.

Section Extra.
Context {V : Type}.
Variable float : text -> option V.
Fixpoint text_eqb (a b : text) : bool :=
  match a, b with [], [] => true | x :: a, y :: b => Ascii.eqb x y && text_eqb a b | _, _ => false end.
Fixpoint dict_put {A} (d : list (text * A)) (k : text) (v : A) : list (text * A) :=
  match d with [] => [(k, v)] | (k', v') :: r => if text_eqb k k' then (k', v) :: r else (k', v') :: dict_put r k v end.
Fixpoint dict_find {A} (d : list (text * A)) (k : text) : option A :=
  match d with [] => None | (k', v) :: r => if text_eqb k k' then Some v else dict_find r k end.

(** 76-79. [key, value = arg.split("=")] raises ValueError unless there are exactly two pieces. *)
Fixpoint parse_args (args : list text) (acc : list (text * V)) : res (list (text * V)) :=
  match args with
  | [] => Ok acc
  | arg :: r =>
      match split_on c_equal arg with
      | [key; value] => match float value with
                        | Some v => parse_args r (dict_put acc (strip key) v)
                        | None => Err ValueError
                        end
      | _ => Err ValueError
      end
  end.
(** 68-83. *)
Definition process_extra (input : text) : list (text * list (text * V)) :=
  fold_left (fun result m => match parse_args (split_on c_comma (snd m)) [] with
                             | Ok d => dict_put result (fst m) d
                             | Err _ => result
                             end) (findall input) [].
End Extra.
