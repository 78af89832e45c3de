(** Shared vocabulary of the development: results with exceptions, list helpers. *)
From Coq Require Import List Bool Ascii String ZArith QArith.
Import ListNotations.

(** Python exception classes that the modelled code raises or lets through. *)
Inductive exn : Type :=
| ValueError | KeyError | TypeError | IndexError | ZeroDivisionError
| AttributeError | RuntimeError | UserError (* an exception raised by the caller's own code *)
| UnicodeDecodeError | OSError | OverflowError | NameError | TraitError
| NaNResult. (* not an exception: numpy goes on with nan; what happens then is not modelled *)

(** A Python computation either returns or raises. *)
Inductive res (A : Type) : Type :=
| Ok (a : A)
| Err (e : exn).
Arguments Ok {A} a.
Arguments Err {A} e.

Definition bind {A B} (r : res A) (f : A -> res B) : res B :=
  match r with Ok a => f a | Err e => Err e end.

Definition is_ok {A} (r : res A) : bool :=
  match r with Ok _ => true | Err _ => false end.

Notation "'do' x <- r ; k" := (bind r (fun x => k))
  (at level 200, x pattern, r at level 100, k at level 200).
