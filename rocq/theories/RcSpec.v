(** Specification vocabulary for the rcParams properties (C01-C05). *)
From Coq Require Import List Bool Ascii String ZArith QArith.
From Verif Require Import Base RcModel.
Import ListNotations.
Open Scope string_scope.

(** The documented settings. *)
Definition known_keys : list string := ["stats.ci_kind"; "stats.ci_prob"; "plots.show_plot"].

(** A number that is neither below 0 nor above 1 (nan is neither). *)
Definition not_outside_unit (f : pyfloat) : Prop :=
  match f with
  | FQ q => 0 <= q /\ q <= 1
  | FNaN => True
  | FInf | FNegInf => False
  end.

(** The values each setting is documented to have. *)
Definition valid_setting (k : string) (v : pyval) : Prop :=
  (k = "stats.ci_kind" /\ (v = VStr "eti" \/ v = VStr "hdi"))
  \/ (k = "stats.ci_prob" /\ exists f, v = VFloat f /\ not_outside_unit f)
  \/ (k = "plots.show_plot" /\ exists b, v = VBool b).

(** A settings object is sound: exactly the documented keys, each once, each with a valid value. *)
Definition sound (s : store) : Prop :=
  NoDup (map fst s) /\
  (forall k, In k known_keys <-> exists v, get k s = Some v) /\
  (forall k v, get k s = Some v -> valid_setting k v).

(** Two settings objects are indistinguishable by reading. *)
Definition same_settings (s s' : store) : Prop := forall k, get k s = get k s'.

(** A program changes settings only inside rc_context blocks, and every block it contains can be
    entered from any sound state. *)
Inductive scoped (fos : string -> option pyfloat) (str : pyval -> string) : prog -> Prop :=
| sc_skip : scoped fos str Skip
| sc_raise e : scoped fos str (Raise e)
| sc_forb op : scoped fos str (Forbidden op)
| sc_seq p q : scoped fos str p -> scoped fos str q -> scoped fos str (Seq p q)
| sc_try p q : scoped fos str p -> scoped fos str q -> scoped fos str (Try p q)
| sc_with rc f body :
    (forall s, sound s -> snd (ctx_init fos str rc f s) = None) ->
    scoped fos str (With rc f body).

(** Strings without a given character / without surrounding white space. *)
Fixpoint free_of (c : ascii) (s : string) : Prop :=
  match s with EmptyString => True | String d r => d <> c /\ free_of c r end.
Definition trimmed (s : string) : Prop := strip s = s.

Fixpoint all_space (s : string) : Prop :=
  match s with EmptyString => True | String c r => is_space c = true /\ all_space r end.

(** Text of a setting as a user writes it in an rc file. *)
Definition render (k v : string) : string := k ++ ": " ++ v.

(** A key or value that may be written in an rc file. *)
Definition writable_key (k : string) : Prop :=
  k <> "" /\ trimmed k /\ free_of hash_char k /\ free_of colon_char k.
Definition writable_val (v : string) : Prop :=
  v <> "" /\ trimmed v /\ free_of hash_char v.

(** [spells lines es]: the text [lines] writes out the settings [es], one per line, in this order, with any
    white space around keys and values, any trailing comments, and any blank or comment lines between. *)
Definition comment (c : string) : Prop := c = "" \/ exists t, c = String hash_char t.

Inductive spells : list string -> list (string * string) -> Prop :=
| sp_end : spells [] []
| sp_blank sp c l es : all_space sp -> comment c -> spells l es -> spells ((sp ++ c) :: l) es
| sp_entry k v s1 s2 s3 s4 c l es :
    writable_key k -> writable_val v ->
    all_space s1 -> all_space s2 -> all_space s3 -> all_space s4 -> comment c ->
    spells l es ->
    spells ((s1 ++ k ++ s2 ++ ":" ++ s3 ++ v ++ s4 ++ c) :: l) ((k, v) :: es).

(** A line that has text before any comment but no colon there. *)
Definition no_colon_line (l : string) : Prop :=
  exists a c, l = a ++ c /\ free_of hash_char a /\ comment c /\ free_of colon_char a /\ ~ all_space a.

(** The alphabetical order of Python: the shorter comes first if it is the beginning of the other; otherwise the first
    characters that differ decide, by their codes. *)
Definition alphabetical (a b : string) : Prop :=
  (exists r, b = a ++ r) \/
  exists p c d x y, a = p ++ String c x /\ b = p ++ String d y /\ (nat_of_ascii c < nat_of_ascii d)%nat.

(** The same word, with letters in any case: [w] is written in lower case. *)
Fixpoint in_any_case (s w : string) : Prop :=
  match s, w with
  | EmptyString, EmptyString => True
  | String c s, String d w => (c = d \/ (nat_of_ascii c + 32 = nat_of_ascii d)%nat) /\ in_any_case s w
  | _, _ => False
  end.
