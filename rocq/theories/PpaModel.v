(** Model of the prior predictive session: class FilterDistribution, preliz/predictive/ppa.py 149-386, and the click handler
    129-139. Samples are their indices 0 .. draws-1. Python sets are duplicate-free lists; only membership and size are
    used. scipy's KDTree.query(octiles of p, [k]) is the k-th element (from 1) of [order p], all samples by distance from p;
    for k above the number of samples it answers [draws]. What it answers for k < 1 is not documented: the parameter
    [below], taken to be the same for every such k. *)
From Coq Require Import List Bool Arith Reals.
From Verif Require Import Base XR.
Import ListNotations.

Definition mem (x : nat) (l : list nat) : bool := existsb (Nat.eqb x) l.
(** set.update *)
Definition add (l : list nat) (x : nat) : list nat := if mem x l then l else (l ++ [x])%list.
Definition update (l new : list nat) : list nat := fold_left add new l.

Record session := mkSession {
  s_shown : list nat; s_selected : list nat; s_choices : list nat; s_distances : list (nat * R);
  s_titles : list (option nat);   (* title of each axis of the figure; None for the empty title *)
  s_clicked : list nat            (* positions of the clicked axes *)
}.

Section Ppa.
Variable draws : nat.
Variable order : nat -> list nat.
Variable distance : nat -> nat -> R.
Variables target_order : list nat.
Variable target_distance : nat -> R.
Variables lo hi : nat -> R.            (* np.min and np.max of a sample *)
Variables b0 b1 : xr.                  (* self.boundaries *)
Variable trimmed : list R -> xr.       (* the trimmed mean of lines 325-328 *)
Variable below : res nat.
Variable pick : list nat -> nat.       (* default_rng(235).choice *)

Fixpoint put (d : list (nat * R)) (k : nat) (v : R) : list (nat * R) :=
  match d with [] => [(k, v)] | (k', v') :: r => if Nat.eqb k k' then (k, v) :: r else (k', v') :: put r k v end.

(** 233-236: samples outside the boundaries. *)
Definition outside (i : nat) : bool := xltb (Fin (lo i)) b0 || xltb b1 (Fin (hi i)).

(** The inner loops [while new in samples or new in self.shown: new = next neighbour]. None: it never ends. *)
Fixpoint near_loop (bad : nat -> bool) (rest : list nat) (new : nat) : option nat :=
  if bad new then match rest with [] => if bad draws then None else Some draws | v :: r => near_loop bad r v end else Some new.
Fixpoint far_loop (bad : nat -> bool) (rest : list nat) (new : nat) : option (res nat) :=
  if bad new then
    match rest with
    | [] => match below with Err e => Some (Err e) | Ok v => if bad v then None else Some (Ok v) end
    | v :: r => far_loop bad r v
    end
  else Some (Ok new).

(** 249-259: eight more samples, each the farthest unseen from the previous one. *)
Fixpoint far_batch (n : nat) (shown batch : list nat) (new : nat) : option (res (list nat)) :=
  match n with
  | O => Some (Ok batch)
  | S n =>
      match far_loop (fun v => mem v batch || mem v shown) (rev (order (last batch 0%nat))) new with
      | None => None
      | Some (Err e) => Some (Err e)
      | Some (Ok new) => far_batch n shown (if Nat.eqb new draws then batch else batch ++ [new]) new
      end
  end.
(** 260-276: nine samples near the target. The list starts with the marker -1, dropped at the end; here [None]. The search
    starts at the second neighbour and looks only at the list itself. *)
Fixpoint target_batch (n : nat) (batch : list nat) (new : option nat) (dists : list (nat * R)) : option (list nat * list (nat * R)) :=
  match n with
  | O => Some (batch, dists)
  | S n =>
      let bad v := mem v batch in
      let next := match new with
                  | None => match tl target_order with [] => Some draws | v :: r => near_loop bad r v end
                  | Some new => near_loop bad (tl target_order) new
                  end in
      match next with
      | None => None
      | Some new => if Nat.eqb new draws then target_batch n batch (Some new) dists
                    else target_batch n (batch ++ [new]) (Some new) (put dists new (target_distance new))
      end
  end.
(** 220-280. The displayed batch and the new state. *)
Definition initialize_subsamples (target : bool) (s : session) : option (res (list nat * session)) :=
  let shown := update (s_shown s) (filter outside (seq 0 draws)) in
  let finish batch dists := mkSession (update shown batch) (s_selected s) (s_choices s) dists (s_titles s) (s_clicked s) in
  if Nat.eqb (List.length shown) draws then Some (Ok ([], finish [] (s_distances s)))
  else if target then
    match target_batch 9 [] None (s_distances s) with
    | None => None
    | Some (batch, dists) => Some (Ok (batch, finish batch dists))
    end
  else
    let new := pick (filter (fun i => negb (mem i shown)) (seq 0 draws)) in
    match far_batch 8 shown [new] new with
    | None => None
    | Some (Err e) => Some (Err e)
    | Some (Ok batch) => Some (Ok (batch, finish batch (s_distances s)))
    end.

(** 282-310. [samples] starts with the choice itself. *)
Fixpoint keep_batch (n : nat) (shown samples : list nat) (new : nat) (dists : list (nat * R)) : option (list nat * list (nat * R)) :=
  match n with
  | O => Some (samples, dists)
  | S n =>
      let from := last samples 0%nat in
      match near_loop (fun v => mem v samples || mem v shown) (tl (order from)) new with
      | None => None
      | Some new => if Nat.eqb new draws then keep_batch n shown samples new dists
                    else keep_batch n shown (samples ++ [new]) new (put dists new (distance from new))
      end
  end.
Definition keep_sampling (s : session) : option (list nat * session) :=
  match s_choices s with
  | [] => Some ([], s)
  | new :: choices =>
      match keep_batch 9 (s_shown s) [new] new (s_distances s) with
      | None => None
      | Some (samples, dists) =>
          Some (tl samples, mkSession (update (s_shown s) (tl samples)) (s_selected s) choices dists (s_titles s) (s_clicked s))
      end
  end.

(** 312-351. *)
Definition collect_more_samples (s : session) : session :=
  let ds := map snd (filter (fun kv => mem (fst kv) (s_selected s)) (s_distances s)) in
  let '(max_dist, upper) := if Nat.ltb 2 (List.length ds) then (trimmed ds, draws) else (PInf, 3%nat) in
  let new := flat_map (fun p => filter (fun v => xltb (Fin (distance p v)) max_dist) (firstn (upper - 2) (tl (order p)))) (s_selected s) in
  let new := if xisfinite b0 || xisfinite b1
             then filter (fun i => xltb b0 (Fin (lo i)) && xltb (Fin (hi i)) b1) new else new in
  mkSession (update (s_shown s) new) (update (s_selected s) new) (s_choices s) (s_distances s) (s_titles s) (s_clicked s).

(** int(ax.get_title()) for the clicked axes: ValueError for an axis without title. *)
Fixpoint titles_of (titles : list (option nat)) (clicked : list nat) : res (list nat) :=
  match clicked with
  | [] => Ok []
  | c :: r => match nth c titles None with
              | None => Err ValueError
              | Some t => do ts <- titles_of titles r; Ok (t :: ts)
              end
  end.
(** plot_helper.py 567-592: the first axes get the displayed indices as titles, the others keep theirs. *)
Definition retitle (titles : list (option nat)) (batch : list nat) : list (option nat) :=
  (firstn (List.length titles) (map Some batch) ++ skipn (List.length batch) titles)%list.
(** 353-386. [shuffle] is random.shuffle. *)
Definition carry_on (shuffle : list nat -> list nat) (s : session) : option (res (list nat * session)) :=
  let prepared :=
    match s_clicked s with
    | [] => Ok s
    | _ => do ts <- titles_of (s_titles s) (s_clicked s);
           let choices := shuffle (s_choices s ++ ts)%list in
           let s := collect_more_samples
             (mkSession (s_shown s) (update (s_selected s) choices) choices (s_distances s) (s_titles s) (s_clicked s)) in
           Ok (mkSession (s_shown s) (s_selected s) (s_choices s) (s_distances s) (map (fun _ => None) (s_titles s)) [])
    end in
  match prepared with
  | Err e => Some (Err e)
  | Ok s =>
      match keep_sampling s with
      | None => None
      | Some (batch, s) =>
          match (match batch with [] => initialize_subsamples false s | _ => Some (Ok (batch, s)) end) with
          | Some (Ok (batch, s)) =>
              let titles := match batch with [] => [] | _ => retitle (s_titles s) batch end in
              Some (Ok (batch, mkSession (s_shown s) (s_selected s) (s_choices s) (s_distances s) titles (s_clicked s)))
          | r => r
          end
      end
  end.
(** 129-139: a click selects an axis, a second click deselects it. *)
Definition click (axis : nat) (s : session) : session :=
  if Nat.ltb axis (List.length (s_titles s)) then
    mkSession (s_shown s) (s_selected s) (s_choices s) (s_distances s) (s_titles s)
      (if mem axis (s_clicked s) then filter (fun c => negb (Nat.eqb c axis)) (s_clicked s) else (s_clicked s ++ [axis])%list)
  else s.

(** The constructor and __call__ (149-198): the first batch and the figure, a square grid of axes. [grid n] is the number of
    axes for n samples. *)
Variable grid : nat -> nat.
Definition start (target : bool) : option (res (list nat * session)) :=
  match initialize_subsamples target (mkSession [] [] [] [] [] []) with
  | Some (Ok (batch, s)) =>
      Some (Ok (batch, mkSession (s_shown s) (s_selected s) (s_choices s) (s_distances s) (retitle (repeat None (grid (List.length batch))) batch) (s_clicked s)))
  | r => r
  end.

(** What the user does. The result lists the batches displayed, the last one first, and the state reached. *)
Inductive event := Click (axis : nat) | Carry (shuffle : list nat -> list nat).
Fixpoint play (events : list event) (batches : list (list nat)) (s : session) : option (res (list (list nat) * session)) :=
  match events with
  | [] => Some (Ok (batches, s))
  | Click a :: r => play r batches (click a s)
  | Carry sh :: r => match carry_on sh s with
                     | None => None
                     | Some (Err e) => Some (Err e)
                     | Some (Ok (batch, s)) => play r (batch :: batches) s
                     end
  end.
Definition run (target : bool) (events : list event) : option (res (list (list nat) * session)) :=
  match start target with
  | None => None
  | Some (Err e) => Some (Err e)
  | Some (Ok (batch, s)) => play events [batch] s
  end.
End Ppa.
