(** Specification vocabulary for pooling (C35, C19). *)
From Coq Require Import List Bool ZArith Reals.
From Verif Require Import Base RLists PoolModel.
Import ListNotations.
Open Scope R_scope.

(** Probability that a finite discrete distribution (values, probabilities) gives to the value [x]. *)
Definition mass_at (x : R) (xs ps : list R) : R :=
  fold_right Rplus 0
    (map (fun xp => if Req_EM_T (fst xp) x then snd xp else 0) (combine xs ps)).

Definition expectation (xs ps : list R) : R :=
  fold_right Rplus 0 (map (fun xp => fst xp * snd xp) (combine xs ps)).

(** A well formed elicited histogram. *)
Definition elicited (r : response) : Prop :=
  length (r_x r) = length (r_pdf r) /\ Forall (fun p => 0 <= p) (r_pdf r) /\
  fold_right Rplus 0 (r_pdf r) = 1 /\ 0 <= r_chips r.

Definition same_grid (rs : list response) : Prop :=
  forall a b, In a rs -> In b rs -> r_grid a = r_grid b.

(** Weighted total over experts: sum over j of w_j * chips_j * f(response_j). *)
Definition over_experts (rs : list response) (ws : list R) (f : response -> R) : R :=
  fold_right Rplus 0 (map (fun rw => snd rw * r_chips (fst rw) * f (fst rw)) (combine rs ws)).
