(** Model of the dot and the lines drawn under a distribution or a sample: /repo/preliz/internal/plot_helper.py, lines
    28-125. *)
From Coq Require Import Reals List String Bool.
From Verif Require Import Base XR.
Import ListNotations.
Local Open Scope string_scope.
Local Open Scope list_scope.

(** What is asked of a distribution (the methods ppf, hdi, eti and median) or of a sample (np.quantile, array_stats.hdi,
    array_stats.eti and np.median). *)
Record source := { quantile : R -> xr; hdi_of : R -> res (xr * xr); eti_of : R -> res (xr * xr); median_of : xr }.

(** What is drawn, along the axis of the values, at height zero. [rotated] only swaps the two axes and is left out. *)
Inductive width := Thin | Thick.
Inductive mark := Seg (w : width) (a b : xr) | Dot (x : xr).

(** plot_helper.py 111-125; the list is the one the function pops from. *)
Definition sub_interval (w : width) (q_s : list xr) : list mark * list xr :=
  match q_s with
  | lower :: (_ :: _) as rest =>
    let upper := last q_s NaN in
    let inner := removelast (tl q_s) in
    (if xltb lower upper then [Seg w lower upper] else [Seg w lower (Fin PI); Seg w (Fin (- PI)) upper], inner)
  | _ => ([], q_s)     (* not called with fewer than three *)
  end.

Fixpoint intervals (f : R -> res (xr * xr)) (levels : list R) : res (list xr) :=
  match levels with
  | [] => Ok []
  | m :: ms => do p <- f m; do r <- intervals f ms; Ok (fst p :: snd p :: r)
  end.

(** plot_helper.py 54-96: the values to show. [ci_kind] and [ci_prob] are the rcParams. The local variable [func] is not
    assigned for another kind of interval. *)
Definition points (ci_kind : string) (ci_prob : R) (src : source) (interval : option string) (levels : option (list R)) : res (list xr) :=
  let interval := match interval with Some i => i | None => ci_kind end in
  if String.eqb interval "quantiles" then
    do levels <- match levels with
                 | None => Ok [5 / 100; 25 / 100; 1 / 2; 75 / 100; 95 / 100]%R
                 | Some l => if existsb (Nat.eqb (List.length l)) [5; 3; 1; 0]%nat then Ok l else Err ValueError
                 end;
    Ok (map (quantile src) levels)
  else
    do levels <- match levels with
                 | None => Ok [1 / 2; ci_prob]%R
                 | Some l => if existsb (Nat.eqb (List.length l)) [2; 1]%nat then Ok l else Err ValueError
                 end;
    do func <- (if String.eqb interval "hdi" then Ok (hdi_of src) else if String.eqb interval "eti" then Ok (eti_of src) else Err NameError);
    do q_tmp <- intervals func levels;
    match q_tmp with
    | [q0; q1; q2; q3] => Ok [q2; q0; median_of src; q1; q3]
    | [q0; q1] => Ok [q0; median_of src; q1]
    | _ => Ok []
    end.

(** plot_helper.py 98-108. *)
Definition point_interval (ci_kind : string) (ci_prob : R) (src : source) (interval : option string) (levels : option (list R)) : res (list mark) :=
  do q_s <- points ci_kind ci_prob src interval levels;
  let size := List.length q_s in
  let (m1, q_s) := if Nat.eqb size 5 then sub_interval Thin q_s else ([], q_s) in
  let (m2, q_s) := if Nat.ltb 2 size then sub_interval Thick q_s else ([], q_s) in
  let m3 := if Nat.ltb 0 size then [Dot (nth 0 q_s NaN)] else [] in
  Ok (m1 ++ m2 ++ m3).
