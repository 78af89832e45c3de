(** Model of the chip grid of preliz/unidimensional/roulette.py (class _Rectangles and the methods of Roulette
    that read and reset it). Coordinates of mouse events are rationals (floats are); matplotlib is only
    modelled through the event it delivers and the face colour of each rectangle. *)
From Coq Require Import List Bool ZArith QArith Qround Reals.
From Verif Require Import Base RLists.
Import ListNotations.
Open Scope Z_scope.

(** The grid object: dimensions, the weights dictionary and the colour of the rectangles
    ([true] is the filled colour "C1", [false] the empty colour "0.8").
    Dictionary and colour array are functions; only columns 0..ncols-1 and rows 0..nrows-1 exist. *)
Record grid := {
  nrows : Z;
  ncols : Z;
  weights : Z -> Z;
  coll : Z -> Z -> bool        (* row, column *)
}.

(** roulette.py 139-144 and 402-410 (also 203-209): a fresh grid is empty. *)
Definition new_grid (nr nc : Z) : grid :=
  {| nrows := nr; ncols := nc; weights := fun _ => 0; coll := fun _ _ => false |}.

Definition set_weight (w : Z -> Z) (c v : Z) : Z -> Z := fun k => if k =? c then v else w k.

(** A loop "for row in range(n): coll[row, c].set_facecolor(colour)". *)
Definition paint (cl : Z -> Z -> bool) (c n : Z) (colour : bool) : Z -> Z -> bool :=
  fun row col => if (col =? c) && (0 <=? row) && (row <? n) then colour else cl row col.

(** roulette.py 412-427. [inaxes] is the test of line 413. *)
Definition click (g : grid) (inaxes : bool) (x y : Q) : grid :=
  if inaxes then
    let idx := Qfloor x in
    let idy := Qceiling y in
    if (0 <=? idx) && (idx <? ncols g) && (0 <=? idy) && (idy <=? nrows g) then
      let '(idy, cl) :=
        if idy <=? weights g idx                       (* weights[idx] >= idy *)
        then (idy - 1, paint (coll g) idx (nrows g) false)
        else (idy, coll g) in
      {| nrows := nrows g; ncols := ncols g;
         weights := set_weight (weights g) idx idy;
         coll := paint cl idx idy true |}
    else g
  else g.

(** What a user can do to the grid: click, or change the dimensions (roulette.py 203-209, 372-377). *)
Inductive action := Click (inaxes : bool) (x y : Q) | Resize (nr nc : Z).

Definition act (g : grid) (a : action) : grid :=
  match a with
  | Click i x y => click g i x y
  | Resize nr nc => new_grid nr nc
  end.

Definition run (g : grid) (l : list action) : grid := fold_left act l g.

(* ------------------------------------------------------------------ *)
Open Scope R_scope.

(** Items of the weights dictionary, in key order (it is created from range(0, ncols)). *)
Definition range0 (n : Z) : list Z := map Z.of_nat (seq 0 (Z.to_nat n)).
Definition weight_items (g : grid) : list (Z * Z) := map (fun k => (k, weights g k)) (range0 (ncols g)).

Definition nonzero (kv : Z * Z) : bool := negb (Z.eqb (snd kv) 0).

(** roulette.py 192-201. The standard deviation is the square root of [var]; exact arithmetic.
    Divisions by a zero [ncols - 1] or, when some weight is not 0, by a zero total raise. *)
Record pdf_result := { x_vals : list R; epdf : list R; mean : R; std : R; filled : nat }.

Definition weights_to_pdf (g : grid) (x_min x_max : R) : res pdf_result :=
  if Z.eqb (ncols g - 1)%Z 0 then Err ZeroDivisionError else
  let step := (x_max - x_min) / IZR (ncols g - 1) in
  let items := filter nonzero (weight_items g) in
  let total := fold_right Z.add 0%Z (map snd (weight_items g)) in
  if (Z.eqb total 0 && negb (Nat.eqb (length items) 0))%bool then Err ZeroDivisionError else
  let xs := map (fun kv => (IZR (fst kv) + 1/2) * step + x_min) items in
  let ps := map (fun kv => IZR (snd kv) / IZR total) items in
  let m := Rsum (map (fun pv => fst pv * snd pv) (combine ps xs)) in
  let v := Rsum (map (fun pv => fst pv * (snd pv - m) ^ 2) (combine ps xs)) in
  Ok {| x_vals := xs; epdf := ps; mean := m; std := sqrt v; filled := length xs |}.

(** roulette.py 134-137 for fewer than 11 columns: the label under the centre of column [k]. *)
Definition column_label (g : grid) (x_min x_max : R) (k : Z) : R :=
  x_min + IZR k * ((x_max - x_min) / IZR (ncols g - 1)).

(** roulette.py 396-399: after this observer the two limits differ. *)
Definition on_x_min_change (new_min x_max : R) : R * R :=
  if Req_EM_T new_min x_max then (new_min, new_min + 1) else (new_min, x_max).
