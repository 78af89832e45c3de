(** What the panel of the predictive explorer should show, without reference to how the code keeps its settings. *)
From Coq Require Import Reals List String Bool ZArith Sorting.Permutation Sorting.Sorted.
From Verif Require Import Base ExploreModel.
Import ListNotations.
Local Open Scope R_scope.

(** The k-th redraw of a session. *)
Definition nth_redraw (outs : list (list call * option exn)) (k : nat) : option (list call * option exn) := nth_error outs k.

(** A curve through the points of a sample in increasing order, each at the share of the sample that comes before it. *)
Definition empirical (sample xs ys : list R) : Prop :=
  Permutation xs sample /\ StronglySorted Rle xs /\
  List.length ys = List.length xs /\ forall k, (k < List.length xs)%nat -> nth k ys 0 = INR k / INR (List.length sample).

(** A value falls into the bin between the i-th edge and the next. *)
Definition in_bin (edges : list R) (i : nat) (x : R) : Prop :=
  (i + 1 < List.length edges)%nat /\ nth i edges 0 <= x < nth (i + 1) edges 0.

(** numpy's sort. *)
Definition sorts (sort : list R -> list R) : Prop := forall l, Permutation (sort l) l /\ StronglySorted Rle (sort l).

(** Draws of an integer array hold integers, none of them a NaN. *)
Definition integers (rows : list (list R)) : Prop := forall row x, In row rows -> In x row -> exists z, x = IZR z.

(** The radio buttons offer three kinds of plot. *)
Definition offered (c : controls) : Prop := In (c_kind c) ["hist"; "kde"; "ecdf"]%string.
Definition is_hist (c : controls) : bool := String.eqb (c_kind c) "hist".

(** A drawing failed. *)
Definition failed (o : list call * option exn) : Prop := exists e, snd o = Some e.
(** Nothing of the sample was drawn. *)
Definition shows_no_sample (o : list call * option exn) : Prop :=
  forall c, In c (fst o) -> match c with Hist _ _ | PooledHist _ _ | Curve _ _ _ | Custom _ => False | _ => True end.

(** What can be read off a panel: the curves, the reference lines and labels. *)
Definition curves (calls : list call) : list (list R * list R) :=
  flat_map (fun c => match c with Curve xs ys _ => [(xs, ys)] | _ => [] end) calls.
Definition lines_at (calls : list call) : list R := flat_map (fun c => match c with VLine x => [x] | _ => [] end) calls.
Definition labels_at (calls : list call) : list (string * R) := flat_map (fun c => match c with Text x l => [(l, x)] | _ => [] end) calls.
Definition values_of (refs : references) : list R :=
  match refs with NoRefs => [] | One x => [x] | Many l => l | Labelled l => map snd l end.

(** A draw of the model that holds numbers only, and the numbers. *)
Definition sample_of (d : draw) (row : list R) : Prop := d_vals d = map Some row.
Definition clean (d : draw) : Prop := ~ In None (d_vals d).
