(** Expectations of random variables of any kind, independent of how the code computes moments. *)
From Coq Require Import List Bool ZArith Reals.
From Verif Require Import Base XR LawModel LawSpec.
Open Scope R_scope.

Definition indicator (b : bool) : R := if b then 1 else 0.

(** [expectation k F L E]: E is the expected value under a variable X with P(X <= t) = F t, defined for the functions in L.
    It is linear and positive, a constant has itself as expectation, and the expectation of an event is its probability. *)
Record expectation (k : kind) (F : xr -> R) (L : (R -> R) -> Prop) (E : (R -> R) -> R) : Prop := {
  e_ext : forall g h, (forall x, g x = h x) -> L g -> L h /\ E h = E g;
  e_lin : forall a b g h, L g -> L h -> L (fun x => a * g x + b * h x) /\ E (fun x => a * g x + b * h x) = a * E g + b * E h;
  e_pos : forall g, L g -> (forall x, 0 <= g x) -> 0 <= E g;
  e_one : L (fun _ => 1) /\ E (fun _ => 1) = 1;
  e_le : forall t, L (fun x => indicator (Rleb x t)) /\ E (fun x => indicator (Rleb x t)) = F (Fin t);
  e_lt : forall t, proper_bound k (Fin t) ->
         L (fun x => indicator (Rltb x t)) /\ E (fun x => indicator (Rltb x t)) = below k F (Fin t) }.

(** The event l <= X <= u, and X brought to the nearest point between l and u, where the bounds may be infinite. *)
Definition inside (l u : xr) (x : R) : R := indicator (xleb l (Fin x) && xleb (Fin x) u).
Definition clip (l u : xr) (x : R) : R :=
  match l, u with
  | Fin a, _ => if Rltb x a then a else match u with Fin b => if Rltb b x then b else x | _ => x end
  | _, Fin b => if Rltb b x then b else x
  | _, _ => x
  end.
(** m and v are the mean and the variance of X given l <= X <= u. *)
Definition given_inside (k : kind) (F : xr -> R) (L : (R -> R) -> Prop) (E : (R -> R) -> R) (l u : xr) (m v : R) : Prop :=
  L (fun x => x * inside l u x) /\ L (fun x => x ^ 2 * inside l u x) /\
  E (fun x => x * inside l u x) = m * between k F l u /\
  E (fun x => (x - m) ^ 2 * inside l u x) = v * between k F l u.
