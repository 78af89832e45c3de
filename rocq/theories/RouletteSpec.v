(** Specification vocabulary for the roulette grid (C36, C37). *)
From Coq Require Import List Bool ZArith QArith Qround Reals.
From Verif Require Import Base RouletteModel.
Import ListNotations.
Open Scope Z_scope.

(** Cell (row r, column c) exists in the grid. *)
Definition in_grid (g : grid) (r c : Z) : Prop := 0 <= r < nrows g /\ 0 <= c < ncols g.

(** What the user sees agrees with what is stored: in every column exactly the cells below the stored
    height are filled. *)
Definition picture_agrees (g : grid) : Prop :=
  forall r c, in_grid g r c -> (coll g r c = true <-> r < weights g c).

(** A mouse position inside cell (r, c): c <= x < c+1 and r < y <= r+1. *)
Definition on_cell (x y : Q) (r c : Z) : Prop :=
  (inject_Z c <= x)%Q /\ (x < inject_Z (c + 1))%Q /\ (inject_Z r < y)%Q /\ (y <= inject_Z (r + 1))%Q.

(** Every click of a history is above the base line of the grid (y > 0), as on a cell. *)
Definition above_base (a : action) : Prop :=
  match a with Click _ _ y => (0 < y)%Q | Resize _ _ => True end.
Definition sane_sizes (a : action) : Prop :=
  match a with Click _ _ _ => True | Resize nr nc => 0 <= nr /\ 0 <= nc end.

Open Scope R_scope.
Definition probability_vector (l : list R) : Prop :=
  Forall (fun p => 0 <= p) l /\ fold_right Rplus 0 l = 1.

(** Strictly increasing list of reals. *)
Fixpoint increasing (l : list R) : Prop :=
  match l with
  | a :: ((b :: _) as t) => a < b /\ increasing t
  | _ => True
  end.
