(** Model of preliz/internal/rcparams.py: the validators, the RcParams mapping, rc files, rc_context.

    Strings are ASCII strings; [str.lower], [str.strip] are their ASCII versions. Floats are rationals
    plus inf, -inf and nan. *)
From Coq Require Import List Bool Ascii String ZArith QArith.
From Verif Require Import Base.
Import ListNotations.
Open Scope string_scope.

(* ------------------------------------------------------------------ *)
(** * Python values that can be assigned to a setting *)

Inductive pyfloat : Type := FQ (q : Q) | FInf | FNegInf | FNaN.

(** [VList]: any unhashable object that float() refuses with TypeError (list, dict, set).
    [VObj]: any other hashable object that float() refuses with TypeError and that is equal neither to a bool
    nor to a string (tuple, function, ...). *)
Inductive pyval : Type :=
| VNone | VBool (b : bool) | VInt (z : Z) | VFloat (f : pyfloat) | VStr (s : string)
| VList | VObj.

(* ------------------------------------------------------------------ *)
(** * Strings *)

(** ASCII part of [str.lower]. *)
Definition lower_ascii (c : ascii) : ascii :=
  let n := nat_of_ascii c in
  if (Nat.leb 65 n && Nat.leb n 90)%bool then ascii_of_nat (n + 32) else c.

Fixpoint lower (s : string) : string :=
  match s with
  | EmptyString => EmptyString
  | String c r => String (lower_ascii c) (lower r)
  end.

(** Characters removed by [str.strip()] without arguments (ASCII part):
    9-13 (tab, newline, vertical tab, form feed, return), 28-31, 32. *)
Definition is_space (c : ascii) : bool :=
  let n := nat_of_ascii c in
  (Nat.leb 9 n && Nat.leb n 13) || (Nat.leb 28 n && Nat.leb n 32).

Fixpoint lstrip (s : string) : string :=
  match s with
  | EmptyString => EmptyString
  | String c r => if is_space c then lstrip r else s
  end.

Fixpoint rstrip (s : string) : string :=
  match s with
  | EmptyString => EmptyString
  | String c r =>
      match rstrip r with
      | EmptyString => if is_space c then EmptyString else String c EmptyString
      | r' => String c r'
      end
  end.

Definition strip (s : string) : string := lstrip (rstrip s).

(** [s.split(c, 1)]: [None] when [c] does not occur, otherwise what is before and after its first
    occurrence. *)
Fixpoint split1 (c : ascii) (s : string) : option (string * string) :=
  match s with
  | EmptyString => None
  | String d r =>
      if Ascii.eqb d c then Some (EmptyString, r)
      else match split1 c r with
           | None => None
           | Some (a, b) => Some (String d a, b)
           end
  end.

Definition hash_char : ascii := "#"%char.
Definition colon_char : ascii := ":"%char.

(* ------------------------------------------------------------------ *)
(** * Validators *)

Section Validators.

(** [float(s)] on a string: [None] means ValueError. External (CPython). *)
Variable float_of_string : string -> option pyfloat.
(** [str(v)] on a value that is not a string. External (CPython). *)
Variable str_of : pyval -> string.

Definition to_str (v : pyval) : string :=
  match v with VStr s => s | _ => str_of v end.

(** rcparams.py 30-46 with accepted_values = {"eti","hdi"}, allow_none=False, typeof=str (line 99).
    The dictionary of line 42 only has the keys "true" and "false", which are not accepted values. *)
Definition validate_ci_kind (v : pyval) : res pyval :=
  let s := lower (to_str v) in
  if (String.eqb s "eti" || String.eqb s "hdi")%bool then Ok (VStr s) else Err ValueError.

(** [float(v)]; the OverflowError of integers above the largest float is not modelled. *)
Definition py_float (v : pyval) : res pyfloat :=
  match v with
  | VBool b => Ok (FQ (if b then 1 else 0))
  | VInt z => Ok (FQ (inject_Z z))
  | VFloat f => Ok f
  | VStr s => match float_of_string s with Some f => Ok f | None => Err ValueError end
  | VNone | VList | VObj => Err TypeError
  end.

(** rcparams.py 51-57: only ValueError is caught (and raised again). *)
Definition validate_float (v : pyval) : res pyfloat :=
  match py_float v with
  | Ok f => Ok f
  | Err ValueError => Err ValueError
  | Err e => Err e
  end.

(** IEEE comparisons with 0 and 1: false on nan. *)
Definition flt_0 (f : pyfloat) : bool :=
  match f with
  | FQ q => negb (Qle_bool 0 q) | FInf => false | FNegInf => true | FNaN => false
  end.
Definition fgt_1 (f : pyfloat) : bool :=
  match f with
  | FQ q => negb (Qle_bool q 1) | FInf => true | FNegInf => false | FNaN => false
  end.

(** rcparams.py 60-65. *)
Definition validate_probability (v : pyval) : res pyval :=
  do f <- validate_float v;
  if (flt_0 f || fgt_1 f)%bool then Err ValueError else Ok (VFloat f).

(** [v in {True, False, "true", "false"}]: hash and equality, so 1, 0, 1.0 and 0.0 are members;
    unhashable values raise TypeError. *)
Definition in_bool_set (v : pyval) : res bool :=
  match v with
  | VBool _ => Ok true
  | VInt z => Ok (Z.eqb z 0 || Z.eqb z 1)%bool
  | VFloat (FQ q) => Ok (Qeq_bool q 0 || Qeq_bool q 1)%bool
  | VFloat _ => Ok false
  | VStr s => Ok (String.eqb s "true" || String.eqb s "false")%bool
  | VNone | VObj => Ok false
  | VList => Err TypeError
  end.

(** rcparams.py 68-74. *)
Definition validate_boolean (v : pyval) : res pyval :=
  let v := match v with VStr s => VStr (lower s) | _ => v end in
  do m <- in_bool_set v;
  if negb m then Err ValueError
  else Ok (VBool (match v with
                  | VBool b => b                    (* value is True *)
                  | VStr s => String.eqb s "true"   (* value == "true" *)
                  | _ => false
                  end)).

(** rcparams.py 98-102 and 111: the validator of a key; [None] is the KeyError of the lookup. *)
Definition validator (k : string) : option (pyval -> res pyval) :=
  if String.eqb k "stats.ci_kind" then Some validate_ci_kind
  else if String.eqb k "stats.ci_prob" then Some validate_probability
  else if String.eqb k "plots.show_plot" then Some validate_boolean
  else None.

(* ------------------------------------------------------------------ *)
(** * The mapping *)

(** The underlying dict: keys in insertion order. *)
Definition store := list (string * pyval).

Fixpoint get (k : string) (s : store) : option pyval :=
  match s with
  | [] => None
  | (k', v) :: r => if String.eqb k k' then Some v else get k r
  end.

Fixpoint put (k : string) (v : pyval) (s : store) : store :=
  match s with
  | [] => [(k, v)]
  | (k', v') :: r => if String.eqb k k' then (k, v) :: r else (k', v') :: put k v r
  end.

(** rcparams.py 119-131. The state is returned next to the exception, since Python mutates in place. *)
Definition setitem (k : string) (v : pyval) (s : store) : store * option exn :=
  match validator k with
  | None => (s, Some KeyError)
  | Some f => match f v with
              | Ok c => (put k c s, None)
              | Err e => (s, Some e)
              end
  end.

(** MutableMapping.update: item by item, stopping at the first exception. *)
Fixpoint update (l : list (string * pyval)) (s : store) : store * option exn :=
  match l with
  | [] => (s, None)
  | (k, v) :: r => match setitem k v s with
                   | (s', None) => update r s'
                   | (s', Some e) => (s', Some e)
                   end
  end.

(** rcparams.py 186-188: iteration in sorted key order. *)
Fixpoint str_leb (a b : string) : bool :=
  match a, b with
  | EmptyString, _ => true
  | String _ _, EmptyString => false
  | String c a', String d b' =>
      let n := nat_of_ascii c in let m := nat_of_ascii d in
      if Nat.ltb n m then true else if Nat.ltb m n then false else str_leb a' b'
  end.

Fixpoint ins (k : string) (l : list string) : list string :=
  match l with
  | [] => [k]
  | h :: t => if str_leb k h then k :: l else h :: ins k t
  end.

Definition iter_keys (s : store) : list string := fold_right ins [] (map fst s).

(** Items in iteration order (Mapping.items goes through __iter__ and __getitem__). *)
Definition items (s : store) : list (string * pyval) :=
  flat_map (fun k => match get k s with Some v => [(k, v)] | None => [] end) (iter_keys s).

(** rcparams.py 137-163: every one of these raises TypeError before touching the storage. *)
Inductive forbidden := DelItem (k : string) | Clear | Pop (k : string) | PopItem | SetDefault (k : string).
Definition forbidden_op (_ : forbidden) (s : store) : store * option exn := (s, Some TypeError).

(** rcparams.py 194-207: [p] is the regular-expression test on keys. The result is a new RcParams built
    with validation. *)
Definition find_all (p : string -> bool) (s : store) : store * option exn :=
  update (filter (fun kv => p (fst kv)) (items s)) [].

(** rcparams.py 209-211. *)
Definition copy (s : store) : list (string * pyval) := s.

(** rcparams.py 299: the defaults, through validation. *)
Definition default_items : list (string * pyval) :=
  [("stats.ci_kind", VStr "eti"); ("stats.ci_prob", VFloat (FQ (89 # 100)));
   ("plots.show_plot", VBool true)].
Definition defaults : store := fst (update default_items []).

(* ------------------------------------------------------------------ *)
(** * rc files *)

(** What line 265-275 make of one line. *)
Inductive line_kind := Blank | Illegal | Entry (key val : string).

Definition classify (line : string) : line_kind :=
  let stripped := strip (match split1 hash_char line with None => line | Some (a, _) => a end) in
  match stripped with
  | EmptyString => Blank
  | _ => match split1 colon_char stripped with
         | None => Illegal
         | Some (k, v) => Entry (strip k) (strip v)
         end
  end.

(** rcparams.py 264-282. [warnings.warn("Illegal %s", error_details)] and
    [warnings.warn("Duplicate key ...", fname, line_no)] pass a string as the warning category, which
    raises TypeError. Only ValueError is caught at line 280 (and raised again). *)
Fixpoint read_lines (lines : list string) (config : store) : res store :=
  match lines with
  | [] => Ok config
  | l :: rest =>
      match classify l with
      | Blank => read_lines rest config
      | Illegal => Err TypeError
      | Entry k v =>
          match get k config with
          | Some _ => Err TypeError
          | None => match setitem k (VStr v) config with
                    | (config', None) => read_lines rest config'
                    | (_, Some e) => Err e
                    end
          end
      end
  end.

(** rcparams.py 253-293. A file that cannot be decoded or opened raises. *)
Inductive file := Lines (l : list string) | Undecodable | Missing.
Definition read_rcfile (f : file) : res store :=
  match f with
  | Lines l => read_lines l []
  | Undecodable => Err TypeError (* line 285: warnings.warn with a non-class category raises first *)
  | Missing => Err OSError
  end.

(** rcparams.py 296-303. *)
Definition rc_params (f : option file) : res store :=
  match f with
  | None => Ok defaults
  | Some file =>
      do fd <- read_rcfile file;
      match update (items fd) defaults with
      | (s, None) => Ok s
      | (_, Some e) => Err e
      end
  end.

(* ------------------------------------------------------------------ *)
(** * rc_context and programs that use the settings *)

(** rcparams.py 331-337: snapshot, then apply file settings, then the dictionary. *)
Definition ctx_init (rc : list (string * pyval)) (f : option file) (s : store) : store * option exn :=
  let apply_rc s := update rc s in
  match f with
  | None => apply_rc s
  | Some file =>
      match read_rcfile file with
      | Err e => (s, Some e)
      | Ok fs => match update (items fs) s with
                 | (s', None) => apply_rc s'
                 | (s', Some e) => (s', Some e)
                 end
      end
  end.

(** User code over the global settings object. *)
Inductive prog :=
| Skip
| SetItem (k : string) (v : pyval)
| Update (l : list (string * pyval))
| Forbidden (op : forbidden)
| Raise (e : exn)
| Seq (p q : prog)
| Try (p q : prog)                     (* try: p  except Exception: q *)
| With (rc : list (string * pyval)) (f : option file) (body : prog).

(** rcparams.py 331-345 and Python's with statement: if __init__ raises, __exit__ is not run; otherwise
    __exit__ runs whatever the body does and its exception propagates. *)
Fixpoint exec (p : prog) (s : store) : store * option exn :=
  match p with
  | Skip => (s, None)
  | SetItem k v => setitem k v s
  | Update l => update l s
  | Forbidden op => forbidden_op op s
  | Raise e => (s, Some e)
  | Seq p q => match exec p s with
               | (s', None) => exec q s'
               | (s', Some e) => (s', Some e)
               end
  | Try p q => match exec p s with
               | (s', None) => (s', None)
               | (s', Some _) => exec q s'
               end
  | With rc f body =>
      let orig := copy s in
      match ctx_init rc f s with
      | (s1, Some e) => (s1, Some e)
      | (s1, None) =>
          let (s2, e) := exec body s1 in
          match update orig s2 with
          | (s3, None) => (s3, e)
          | (s3, Some e') => (s3, Some e')
          end
      end
  end.

End Validators.

(* ------------------------------------------------------------------ *)
(** * Location of the rc file *)

Record env := {
  cwd : string;
  arviz_data : option string;       (* os.environ.get("ARVIZ_DATA") *)
  xdg_config : option string;       (* os.environ.get("XDG_CONFIG_HOME") *)
  home : string;                    (* Path.home() *)
  posix_like : bool                 (* sys.platform starts with "linux" or "freebsd" *)
}.

(** os.path.join and Path joining for non-absolute second components, without normalisation. *)
Definition join (a b : string) : string := a ++ "/" ++ b.

(** rcparams.py 234-244. An empty ARVIZ_DATA is falsy and skipped; an empty XDG_CONFIG_HOME is not. *)
Definition candidates (e : env) : list string :=
  (join (cwd e) "prelizrc")
  :: match arviz_data e with
     | None => []
     | Some d => if String.eqb d "" then [] else [join d "prelizrc"]
     end
  ++ [join (if posix_like e
            then join (match xdg_config e with Some x => x | None => join (home e) ".config" end) "preliz"
            else join (home e) ".preliz") "prelizrc"].

Inductive path_state := Absent | IsDir | IsFile.

(** rcparams.py 246-250. *)
Fixpoint first_file (fs : string -> path_state) (l : list string) : option string :=
  match l with
  | [] => None
  | p :: r => match fs p with IsFile => Some p | _ => first_file fs r end
  end.

Definition get_preliz_rcfile (e : env) (fs : string -> path_state) : option string :=
  first_file fs (candidates e).
