(** Model of preliz/distributions/mixture.py and of the generic quantile function of preliz/internal/optimization.py
    (find_ppf, _ppf_single) that it uses. *)
From Coq Require Import List Bool ZArith Reals.
From Verif Require Import Base RLists XR LawModel ModModel.
Import ListNotations.
Open Scope R_scope.

(** A component: the methods of a distribution object plus mean(), var() and whether its parameters are all given. *)
Record component := { comp : methods; comp_mean : xr; comp_var : xr; comp_frozen : bool }.

Record mixture := {
  mx_kind : kind;
  mx_comps : list component;
  mx_weights : option (list xr);  (* None: np.asarray(None) *)
  mx_supp : xr * xr;
  mx_frozen : bool }.

(** np.sum of a list of floats. *)
Definition xsum (l : list xr) : xr := fold_right xadd (Fin 0) l.
Definition kind_eqb (a b : kind) : bool := match a, b with Discrete, Discrete | Continuous, Continuous => true | _, _ => false end.

(** np.min / np.max of a list: empty raises. *)
Definition np_min_list (l : list xr) : res xr := match l with [] => Err ValueError | a :: r => Ok (fold_left np_minimum r a) end.
Definition np_max_list (l : list xr) : res xr := match l with [] => Err ValueError | a :: r => Ok (fold_left np_maximum r a) end.

(** mixture.py 38-75: kinds must agree; the weights are divided by their sum only when everything is given. *)
Definition make_mixture (dists : list component) (weights : option (list R)) : res mixture :=
  do k <- (if forallb (fun c => kind_eqb (kind_of (comp c)) Discrete) dists then Ok Discrete
           else if forallb (fun c => kind_eqb (kind_of (comp c)) Continuous) dists then Ok Continuous
           else Err ValueError);
  do lo <- np_min_list (map (fun c => fst (m_supp (comp c))) dists);
  do up <- np_max_list (map (fun c => snd (m_supp (comp c))) dists);
  let frozen := forallb comp_frozen dists && match weights with Some _ => true | None => false end in
  let ws := match weights with
            | None => None
            | Some w => Some (if frozen then map (fun x => xdiv (Fin x) (Fin (Rsum w))) w else map Fin w)
            end in
  Ok {| mx_kind := k; mx_comps := dists; mx_weights := ws; mx_supp := (lo, up); mx_frozen := frozen |}.

(** zip(self.dist, self.weights); iterating over np.asarray(None) raises TypeError. *)
Definition zipped (m : mixture) : res (list (component * xr)) :=
  match mx_weights m with None => Err TypeError | Some ws => Ok (combine (mx_comps m) ws) end.
Definition weighted_sum (m : mixture) (f : component -> xr) : res xr :=
  do z <- zipped m; Ok (xsum (map (fun cw => xmul (f (fst cw)) (snd cw)) z)).
(** mixture.py 77-85. *)
Definition mix_pdf (m : mixture) (x : xr) : res xr := weighted_sum m (fun c => m_pdf (comp c) x).
Definition mix_cdf (m : mixture) (x : xr) : res xr := weighted_sum m (fun c => m_cdf (comp c) x).
(** scipy.special.logsumexp of a list: subtract the maximum (0 if it is not finite), sum the exponentials, take the
    logarithm and add the maximum back. *)
Definition logsumexp (l : list xr) : xr :=
  let top := fold_right np_maximum NInf l in
  let top := if xisfinite top then top else Fin 0 in
  xadd (xlog (xsum (map (fun a => xexp (xsub a top)) l))) top.
(** mixture.py 90-94. *)
Definition mix_logpdf (m : mixture) (x : xr) : res xr :=
  do z <- zipped m; Ok (logsumexp (map (fun cw => xadd (xlog (snd cw)) (m_logpdf (comp (fst cw)) x)) z)).
(** mixture.py 107-125. *)
Definition mix_mean (m : mixture) : res xr := weighted_sum m comp_mean.
Definition mix_var (m : mixture) : res xr :=
  do s <- weighted_sum m (fun c => xadd (comp_var c) (xpow (comp_mean c) 2));
  do mu <- mix_mean m;
  Ok (xsub s (xpow mu 2)).

(** mixture.py 136-144. [choices] is the outcome of [random_state.choice(len(self.dist), size=size, p=weights)],
    [draw i n] what component number i returns for [rvs(n)]. Concatenating nothing raises. *)
Definition count_idx (i : nat) (choices : list nat) : nat := length (filter (Nat.eqb i) choices).
Definition mix_rvs {A} (draw : nat -> nat -> list A) (ncomp : nat) (choices : list nat) : res (list A) :=
  let samples := flat_map (fun i => let n := count_idx i choices in if Nat.eqb n 0 then [] else [draw i n]) (seq 0 ncomp) in
  match samples with [] => Err ValueError | _ => Ok (concat samples) end.

(* ------------------------------------------------------ optimization.py: find_ppf (mixture.py 87-88) *)
(** optimization.py 610-625, the two loops that look for a bracket. [fuel] bounds the number of iterations: [None] means
    that the loop is still running. *)
Fixpoint go_left (fuel : nat) (cdf : xr -> xr) (q left right : xr) : option (xr * xr) :=
  if xltb (Fin 0) (xsub (cdf left) q)
  then match fuel with O => None | S f => go_left f cdf q (xmul left (Fin 10)) left end
  else Some (left, right).
Fixpoint go_right (fuel : nat) (cdf : xr -> xr) (q left right : xr) : option (xr * xr) :=
  if xltb (xsub (cdf right) q) (Fin 0)
  then match fuel with O => None | S f => go_right f cdf q right (xmul right (Fin 10)) end
  else Some (left, right).
Definition bracket (fuel : nat) (cdf : xr -> xr) (supp : xr * xr) (q : xr) : option (xr * xr) :=
  let right := snd supp in
  match go_left fuel cdf q (pymin (Fin (-10)) right) right with
  | None => None
  | Some (a, _) => go_right fuel cdf q a (pymax (Fin 10) a)
  end.
(** optimization.py 587-607 for a scalar [q]. [brentq f a b] is scipy's root finder; [plus_one] is the exception for
    HyperGeometric and BetaBinomial. *)
Definition find_ppf (brentq : (xr -> xr) -> xr -> xr -> xr) (plus_one : bool) (fuel : nat) (k : kind)
    (cdf : xr -> xr) (supp : xr * xr) (q : xr) : option xr :=
  if xltb q (Fin 0) then Some NaN
  else if xltb (Fin 1) q then Some NaN
  else if xeqb q (Fin 0) then Some (match k with Discrete => xsub (fst supp) (Fin 1) | Continuous => fst supp end)
  else if xeqb q (Fin 1) then Some (snd supp)
  else match bracket fuel cdf supp q with
       | None => None
       | Some (l, r) =>
           let x := brentq (fun x => xsub (cdf x) q) l r in
           Some (if plus_one then xadd x (Fin 1) else x)
       end.
