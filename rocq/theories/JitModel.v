(** Model of the compilation caches of preliz/internal/distribution_helper.py 108-201. PyTensor itself is a parameter:
    [build] turns symbolic inputs into an executable function or raises. *)
From Coq Require Import List Bool String ZArith Arith.
From Verif Require Import Base.
Import ListNotations.

(** np.asarray of an argument: its shape, dtype and content. *)
Record arr := mkArr { shape : list nat; dtype : string; content : list Z }.
(** A symbolic tensor: each dimension fixed to one ([true]) or left open, and the dtype. *)
Definition tensor_type : Type := list bool * string.

(** distribution_helper.py 120-121. *)
Definition signature_of (args : list arr) : list tensor_type :=
  map (fun a => (map (fun s => Nat.eqb s 1) (shape a), dtype a)) args.

Fixpoint bools_eqb (a b : list bool) : bool :=
  match a, b with
  | [], [] => true
  | x :: a, y :: b => Bool.eqb x y && bools_eqb a b
  | _, _ => false
  end.
Definition type_eqb (a b : tensor_type) : bool := bools_eqb (fst a) (fst b) && String.eqb (snd a) (snd b).
Fixpoint types_eqb (a b : list tensor_type) : bool :=
  match a, b with
  | [], [] => true
  | x :: a, y :: b => type_eqb x y && types_eqb a b
  | _, _ => false
  end.

Section Jit.
Context {K V F : Type}.
Variable key_eqb : K -> K -> bool.
(** A dictionary: a new key goes to the end, an existing one is overwritten. *)
Fixpoint cache_get (c : list (K * F)) (k : K) : option F :=
  match c with [] => None | (k', f) :: r => if key_eqb k k' then Some f else cache_get r k end.
Fixpoint cache_set (c : list (K * F)) (k : K) (f : F) : list (K * F) :=
  match c with
  | [] => [(k, f)]
  | (k', f') :: r => if key_eqb k k' then (k, f) :: r else (k', f') :: cache_set r k f
  end.
End Jit.

(** distribution_helper.py 108-137. A KeyError raised while the cached function runs is taken for a missing entry: the
    function is compiled again. The result is the new cache and the outcome. *)
Definition compiled (V : Type) : Type := list arr -> res V.
Definition jit {V} (build : list tensor_type -> res (compiled V)) (cache : list (list tensor_type * compiled V)) (args : list arr)
    : list (list tensor_type * compiled V) * res V :=
  let signature := signature_of args in
  let recompile :=
    match build signature with
    | Err e => (cache, Err e)
    | Ok f => (cache_set types_eqb cache signature f, f args)
    end in
  match cache_get types_eqb cache signature with
  | Some f => match f args with Err KeyError => recompile | r => (cache, r) end
  | None => recompile
  end.
Fixpoint jit_calls {V} (build : list tensor_type -> res (compiled V)) (cache : list (list tensor_type * compiled V))
    (calls : list (list arr)) : list (list tensor_type * compiled V) * list (res V) :=
  match calls with
  | [] => (cache, [])
  | a :: r => let '(cache, x) := jit build cache a in let '(cache, xs) := jit_calls build cache r in (cache, x :: xs)
  end.

(** distribution_helper.py 140-201. The generator is a state of type [G] the function may change. The key also holds the
    requested size; an integer size becomes a one-element tuple (line 160-161). *)
Inductive size_arg := SizeNone | SizeInt (n : nat) | SizeTuple (l : list nat).
Definition norm_size (s : size_arg) : option (list nat) :=
  match s with SizeNone => None | SizeInt n => Some [n] | SizeTuple l => Some l end.
Definition rng_key : Type := list tensor_type * option (list nat).
Fixpoint nats_eqb (a b : list nat) : bool :=
  match a, b with [], [] => true | x :: a, y :: b => Nat.eqb x y && nats_eqb a b | _, _ => false end.
Definition rng_key_eqb (a b : rng_key) : bool :=
  types_eqb (fst a) (fst b) &&
  match snd a, snd b with None, None => true | Some x, Some y => nats_eqb x y | _, _ => false end.
Definition rng_compiled (V G : Type) : Type := list arr -> option (list nat) -> G -> G * res V.
(** The symbolic size is None or a vector of len(size) integers (175-177). *)
Definition jit_rng {V G} (build : list tensor_type -> option nat -> res (rng_compiled V G))
    (cache : list (rng_key * rng_compiled V G)) (args : list arr) (size : size_arg) (g : G)
    : list (rng_key * rng_compiled V G) * G * res V :=
  let sz := norm_size size in
  let key := (signature_of args, sz) in
  let recompile g :=
    match build (signature_of args) (option_map (@List.length nat) sz) with
    | Err e => (cache, g, Err e)
    | Ok f => let '(g, r) := f args sz g in (cache_set rng_key_eqb cache key f, g, r)
    end in
  match cache_get rng_key_eqb cache key with
  | Some f => match f args sz g with (g', Err KeyError) => recompile g' | (g', r) => (cache, g', r) end
  | None => recompile g
  end.
Fixpoint jit_rng_calls {V G} (build : list tensor_type -> option nat -> res (rng_compiled V G))
    (cache : list (rng_key * rng_compiled V G)) (calls : list (list arr * size_arg)) (g : G)
    : list (rng_key * rng_compiled V G) * G * list (res V) :=
  match calls with
  | [] => (cache, g, [])
  | (a, s) :: r =>
      let '(cache, g, x) := jit_rng build cache a s g in
      let '(cache, g, xs) := jit_rng_calls build cache r g in (cache, g, x :: xs)
  end.
