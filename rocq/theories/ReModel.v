(** The part of Python's [re] that PreliZ uses to read model functions, as a backtracking matcher over ASCII text.
    A pattern is run on a state (previous character, text still to read, groups captured so far) with a continuation; the first success in
    Python's order of preference is returned. Bodies of repetitions must consume text, as they do in every pattern used. *)
From Coq Require Import List Bool Ascii Arith.
From Verif Require Import Base TextModel.
Import ListNotations.

Record state := { prev : option ascii; rest : text; caps : list (nat * text) }.
Inductive re :=
| Nothing                                  (* the empty pattern *)
| Chr (p : ascii -> bool)                  (* one character of a class *)
| Cat (a b : re)
| Or (a b : re)                            (* a|b *)
| Many (greedy : bool) (a : re)            (* a* or a*? *)
| Group (n : nat) (a : re)                 (* ( ) *)
| Boundary                                 (* \b *)
| Eol.                                     (* $ with re.MULTILINE *)

Definition step (s : state) (c : ascii) (t : text) : state := {| prev := Some c; rest := t; caps := caps s |}.
Definition capture (s s1 : state) (n : nat) : state :=
  {| prev := prev s1; rest := rest s1; caps := (n, firstn (List.length (rest s) - List.length (rest s1)) (rest s)) :: caps s1 |}.
Definition wordy (c : option ascii) : bool := match c with Some c => is_word c | None => false end.

(** Repetition of [f], at most [n] times: as many as possible first, or as few as possible first. *)
Fixpoint most {X} (f : state -> (state -> option X) -> option X) (k : state -> option X) (n : nat) (s : state) : option X :=
  match n with
  | O => k s
  | S m => match f s (fun s1 => most f k m s1) with Some x => Some x | None => k s end
  end.
Fixpoint least {X} (f : state -> (state -> option X) -> option X) (k : state -> option X) (n : nat) (s : state) : option X :=
  match k s with
  | Some x => Some x
  | None => match n with O => None | S m => f s (fun s1 => least f k m s1) end
  end.
Fixpoint run {X} (r : re) (s : state) (k : state -> option X) {struct r} : option X :=
  match r with
  | Nothing => k s
  | Chr p => match rest s with c :: t => if p c then k (step s c t) else None | [] => None end
  | Cat a b => run a s (fun s1 => run b s1 k)
  | Or a b => match run a s k with Some x => Some x | None => run b s k end
  | Many true a => most (fun s k => run a s k) k (List.length (rest s)) s
  | Many false a => least (fun s k => run a s k) k (List.length (rest s)) s
  | Group n a => run a s (fun s1 => k (capture s s1 n))
  | Boundary => if xorb (wordy (prev s)) (wordy (hd_error (rest s))) then k s else None
  | Eol => match rest s with [] => k s | c :: _ => if Ascii.eqb c c_newline then k s else None end
  end.

(** A match object: the text before it since the last one, group(0), the groups, and what follows. *)
Record found := { skipped : text; whole : text; groups : list (nat * text); after : state }.
Definition group (m : found) (n : nat) : text :=
  match find (fun g => Nat.eqb (fst g) n) (groups m) with Some g => snd g | None => [] end.
(** The match that starts at the current position. *)
Definition here (r : re) (s : state) : option found :=
  run r {| prev := prev s; rest := rest s; caps := [] |}
    (fun s1 => Some {| skipped := []; whole := firstn (List.length (rest s) - List.length (rest s1)) (rest s); groups := caps s1; after := s1 |}).
(** re.search: the leftmost position where there is a match. *)
Fixpoint search_from (r : re) (p : option ascii) (t : text) : option found :=
  match here r {| prev := p; rest := t; caps := [] |} with
  | Some m => Some m
  | None => match t with
            | [] => None
            | c :: t' => match search_from r (Some c) t' with
                         | Some m => Some {| skipped := c :: skipped m; whole := whole m; groups := groups m; after := after m |}
                         | None => None
                         end
            end
  end.
Definition search (r : re) (t : text) : option found := search_from r None t.
(** re.finditer (patterns that never match the empty text). *)
Fixpoint finditer_from (fuel : nat) (r : re) (p : option ascii) (t : text) : list found :=
  match fuel with
  | O => []
  | S n => match search_from r p t with
           | Some m => m :: finditer_from n r (prev (after m)) (rest (after m))
           | None => []
           end
  end.
Definition finditer (r : re) (t : text) : list found := finditer_from (S (List.length t)) r None t.
(** re.sub(r, "", t). *)
Fixpoint erase_from (fuel : nat) (r : re) (p : option ascii) (t : text) : text :=
  match fuel with
  | O => t
  | S n => match search_from r p t with
           | Some m => (skipped m ++ erase_from n r (prev (after m)) (rest (after m)))%list
           | None => t
           end
  end.
Definition erase (r : re) (t : text) : text := erase_from (S (List.length t)) r None t.

(** Pattern notations: a literal, ., \w+, \s*, an alternative of literals. *)
Fixpoint lit (t : text) : re := match t with [] => Nothing | c :: r => Cat (Chr (Ascii.eqb c)) (lit r) end.
Definition dot : re := Chr (fun c => negb (Ascii.eqb c c_newline)).
Definition some (p : ascii -> bool) : re := Cat (Chr p) (Many true (Chr p)).
Definition any (p : ascii -> bool) : re := Many true (Chr p).
Fixpoint alt (l : list re) : re := match l with [] => Nothing | [a] => a | a :: r => Or a (alt r) end.
