(** Model of preliz/unidimensional/combine_roulette.py and combine.py up to the fit: weights, pooling of
    elicited histograms, sample sizes. Exact real arithmetic. *)
From Coq Require Import List Bool ZArith Reals.
From Verif Require Import Base RLists XR.
Import ListNotations.
Open Scope R_scope.


(** combine_roulette.py 36-44 and combine.py 59-67. [n] is the number of responses/distributions.
    A zero weight sum makes numpy continue with nan. *)
Definition norm_weights (weights : option (list R)) (n : nat) : res (list R) :=
  match weights with
  | None => if Nat.eqb n 0 then Err ZeroDivisionError
            else let w := repeat (1 / INR n) n in Ok (map (fun x => x / Rsum w) w)
  | Some w => if existsb (fun x => Rltb x 0) w then Err ValueError
              else if Reqb (Rsum w) 0 then Err NaNResult
              else Ok (map (fun x => x / Rsum w) w)
  end.

(** The tuple produced by Roulette.inputs (roulette.py 181-189): x values, pdf, number of chips, and the
    grid (x_min, x_max, nrows, ncols). *)
Record response := {
  r_x : list R; r_pdf : list R; r_chips : R;
  r_grid : (R * R) * (Z * Z)
}.

Definition grid_eqb (a b : (R * R) * (Z * Z)) : bool :=
  Reqb (fst (fst a)) (fst (fst b)) && Reqb (snd (fst a)) (snd (fst b)) &&
  Z.eqb (fst (snd a)) (fst (snd b)) && Z.eqb (snd (snd a)) (snd (snd b)).

(** combine_roulette.py 58-61: accumulate into the dictionary (insertion ordered). *)
Fixpoint add_to (d : list (R * R)) (x v : R) : list (R * R) :=
  match d with
  | [] => [(x, v)]
  | (x', v') :: r => if Reqb x x' then (x', v' + v) :: r else (x', v') :: add_to r x v
  end.

(** combine_roulette.py 54-61. *)
Definition pool (rs : list response) (ws : list R) : list (R * R) :=
  fold_left (fun d rw =>
     let '(r, w) := rw in
     fold_left (fun d xp => add_to d (fst xp) (snd xp * w * r_chips r)) (combine (r_x r) (r_pdf r)) d)
    (combine rs ws) [].

Record pooled := { p_x : list R; p_pdf : list R; p_mean : R; p_std : R }.

(** combine_roulette.py 36-77, returning what is handed to the fit. *)
Definition combine_roulette (rs : list response) (weights : option (list R)) : res pooled :=
  do ws <- norm_weights weights (length rs);
  match rs with
  | [] => Err IndexError
  | r0 :: _ =>
      if negb (forallb (fun r => grid_eqb (r_grid r) (r_grid r0)) rs) then Err ValueError
      else
        let d := pool rs ws in
        let total := Rsum (map snd d) in
        if (Reqb total 0 && negb (Nat.eqb (length d) 0))%bool then Err NaNResult
        else
          let d' := map (fun xv => (fst xv, snd xv / total)) d in
          let m := Rsum (map (fun xv => fst xv * snd xv) d') in
          let var := Rsum (map (fun xv => snd xv * (fst xv - m) ^ 2) d') in
          Ok {| p_x := map fst d'; p_pdf := map snd d'; p_mean := m; p_std := sqrt var |}
  end.

(** combine.py 69: [(sample_size * weights).astype(int)], truncation of non-negative numbers. *)
Definition n_size (sample_size : Z) (ws : list R) : list Z :=
  map (fun w => Int_part (IZR sample_size * w)) ws.

(** combine.py 59-76: [rvs i n] is the sample of size n drawn from the i-th distribution. *)
Definition combine_sample {A : Type} (rvs : nat -> nat -> list A) (n_dists : nat)
    (weights : option (list R)) (sample_size : Z) : res (list (list A)) :=
  do ws <- norm_weights weights n_dists;
  Ok (map (fun in_ => rvs (fst in_) (Z.to_nat (snd in_))) (combine (seq 0 n_dists) (n_size sample_size ws))).
