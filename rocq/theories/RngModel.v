(** Model of the method rvs(size, random_state) of every kind of distribution, on arrays of any number of dimensions and with
    the generator as a state: the families (normal.py 172-174; all others have the same two lines), truncated.py 120-122 and
    134-139, censored.py 169-170 and 180-181, hurdle.py 109-111 and 134-146, mixture.py 136-144 and 87-88 with find_ppf of
    preliz/internal/optimization.py 587-607. *)
From Coq Require Import List Bool Arith ZArith Reals.
From Verif Require Import Base XR LawModel ModModel.
Import ListNotations.

(** The arrays of numpy that rvs and ppf return (e.g. truncated.py 122, 139): shape and values, the last dimension varying fastest. A number has the shape []. *)
Record nd (A : Type) := mkNd { shape : list nat; data : list A }.
Arguments mkNd {A}. Arguments shape {A}. Arguments data {A}.
(** The number of values of an array of that shape. *)
Definition total (l : list nat) : nat := fold_right Nat.mul 1%nat l.
(** A numpy function applied to each value (e.g. censored.py 170). *)
Definition nd_map {A B} (f : A -> B) (v : nd A) : nd B := mkNd (shape v) (map f (data v)).

(** The argument size, documented in distributions.py 216-217 as "int or tuple of ints, optional". *)
Inductive size := NoSize | Count (n : nat) | Dims (l : list nat).
(** The argument random_state, documented in distributions.py 218: None, an integer or a Generator (a RandomState is not modelled). *)
Inductive seed := NoSeed | Seed (z : Z) | TheGenerator.

Section Rng.
(** [G]: states of a generator. [F]: families with their parameters. *)
Variables G F : Type.
(** np.random.default_rng(z), and np.random.default_rng() the n-th time it is called in the session. *)
Variable new_rng : Z -> G.
Variable os_rng : nat -> G.
(** The compiled sampler and quantile function of a family; the methods of the generator. *)
Variable family_rvs : F -> size -> G -> nd xr * G.
Variable family_ppf : F -> xr -> xr.
Variable uniform : size -> G -> nd xr * G.
Variable choice : nat -> list xr -> size -> G -> res (nd nat) * G.

(** A distribution: a family, or one of the four classes around others. *)
Inductive dist :=
| Family (f : F)
| Truncated (d : dist) (lower upper : xr)
| Censored (d : dist) (lower upper : xr)
| Hurdle (d : dist) (psi : xr)
| Mixture (ds : list dist) (weights : list xr).
(** The attribute kind, the method cdf at a number and the search for a quantile of a mixture (optimization.py 592-606) are
    modelled elsewhere (LawModel, MixModel); here they are given. *)
Variable kind_of_dist : dist -> kind.
Variable cdf1 : dist -> xr -> xr.
Variable search : dist -> xr -> res xr.
(** What becomes of find_ppf when the rows of a matrix have at most one entry is not modelled: [odd_rows]. *)
Variable odd_rows : nd xr -> res (nd xr).

(** truncated.py 139, hurdle.py 147: np.where(condition on q, nan, vals): [vals] must have the shape of q, or be a single value (a rank above that of q does
    not occur). *)
Definition nan_outside (q vals : nd xr) : res (nd xr) :=
  let pick q v := if xltb q (Fin 0) || xltb (Fin 1) q then NaN else v in
  if list_eq_dec Nat.eq_dec (shape vals) (shape q) then Ok (mkNd (shape q) (map (fun p => pick (fst p) (snd p)) (combine (data q) (data vals))))
  else match data vals with [v] => Ok (mkNd (shape q) (map (fun q => pick q v) (data q))) | _ => Err ValueError end.
(** hurdle.py 143-146: vals = np.zeros_like(q); vals[mask] = new: as many new values as there are places, or one for all of them. *)
Fixpoint fill (mask : list bool) (new : list xr) : list xr :=
  match mask with
  | [] => []
  | false :: r => Fin 0 :: fill r new
  | true :: r => match new with [] => Fin 0 :: fill r [] | v :: new => v :: fill r new end
  end.
Definition assign (q : nd xr) (mask : list bool) (new : nd xr) : res (nd xr) :=
  let places := length (filter (fun b => b) mask) in
  match shape new, data new with
  | [n], l => if Nat.eqb n places then Ok (mkNd (shape q) (fill mask l)) else match l with [v] => Ok (mkNd (shape q) (fill mask (repeat v places))) | _ => Err ValueError end
  | [], [v] => Ok (mkNd (shape q) (fill mask (repeat v places)))
  | _, _ => Err ValueError
  end.
(** optimization.py 591-606: the loop ends at the first exception. *)
Fixpoint all_ok {A} (l : list (res A)) : res (list A) :=
  match l with [] => Ok [] | r :: l => do a <- r; do l <- all_ok l; Ok (a :: l) end.
(** optimization.py 587-607: q becomes an array of at least one dimension; a loop over its first dimension, where a row of more
    than one entry has no truth value; the result is a number when its length is one. *)
Definition find_ppf (d : dist) (q : nd xr) : res (nd xr) :=
  match shape q with
  | [] => do l <- all_ok (map (search d) (data q)); Ok (mkNd [] l)
  | [n] => do l <- all_ok (map (search d) (data q)); Ok (mkNd (if Nat.eqb n 1 then [] else [n]) l)
  | n :: r => if Nat.eqb n 0 then Ok (mkNd (shape q) []) else if Nat.ltb 1 (total r) then Err ValueError else odd_rows q
  end.
(** truncated.py 134-139, censored.py 180-181, hurdle.py 135-147, mixture.py 87-88. *)
Fixpoint ppf (d : dist) (q : nd xr) : res (nd xr) :=
  match d with
  | Family f => Ok (nd_map (family_ppf f) q)
  | Truncated b lower upper =>
      let lcdf := cdf1 b (adjust_lower (kind_of_dist b) lower) in
      do vals <- ppf b (nd_map (fun q => xadd lcdf (xmul q (xsub (cdf1 b upper) lcdf))) q);
      nan_outside q vals
  | Censored b lower upper => do vals <- ppf b q; Ok (nd_map (fun v => np_clip v lower upper) vals)
  | Hurdle b psi =>
      let lcdf := cdf1 b (match kind_of_dist b with Discrete => Fin 0 | Continuous => Fin eps end) in
      let mask := map (fun q => xleb (xsub (Fin 1) psi) q) (data q) in
      let inner := filter (fun q => xleb (xsub (Fin 1) psi) q) (data q) in
      do new <- ppf b (mkNd [length inner] (map (fun q => xadd lcdf (xdiv (xmul (xsub q (xsub (Fin 1) psi)) (xsub (Fin 1) lcdf)) psi)) inner));
      do vals <- assign q mask new;
      nan_outside q vals
  | Mixture _ _ => find_ppf d q
  end.

(** mixture.py 144: np.concatenate of a list of vectors; an array of no dimension is refused, those of several do not occur. *)
Definition concatenate (l : list (nd xr)) : res (nd xr) :=
  match l with
  | [] => Err ValueError
  | _ => if forallb (fun v => match shape v with [_] => true | _ => false end) l
         then Ok (mkNd [length (concat (map data l))] (concat (map data l))) else Err ValueError
  end.
(** truncated.py 120-122, censored.py 169-170, hurdle.py 109-111, mixture.py 136-144, normal.py 172-174: rvs with a Generator, which default_rng returns as it is: the result and the state it leaves the generator in. *)
Fixpoint rvs_rng (d : dist) (s : size) (g : G) : res (nd xr) * G :=
  match d with
  | Family f => let '(v, g) := family_rvs f s g in (Ok v, g)
  | Truncated _ _ _ | Hurdle _ _ => let '(u, g) := uniform s g in (ppf d u, g)
  | Censored b lower upper => let '(v, g) := rvs_rng b s g in (do v <- v; Ok (nd_map (fun x => np_clip x lower upper) v), g)
  | Mixture ds weights =>
      let '(idx, g) := choice (length ds) weights s g in
      match idx with
      | Err e => (Err e, g)
      | Ok idx =>
          let '(samples, g) :=
            (fix loop i ds g : res (list (nd xr)) * G :=
               match ds with
               | [] => (Ok [], g)
               | d :: r =>
                   let n := length (filter (Nat.eqb i) (data idx)) in
                   if Nat.eqb n 0 then loop (S i) r g
                   else let '(v, g) := rvs_rng d (Count n) g in
                        match v with
                        | Err e => (Err e, g)
                        | Ok v => let '(l, g) := loop (S i) r g in (do l <- l; Ok (v :: l), g)
                        end
               end) 0%nat ds g in
          (do samples <- samples; concatenate samples, g)
      end
  end.

(** The session: the state of the user's Generator, and how often default_rng() was called. *)
Record session := mkSession { generator : G; opened : nat }.
(** truncated.py 121, hurdle.py 110, mixture.py 137, normal.py 173: random_state = np.random.default_rng(random_state), then [f]. *)
Definition with_rng {A} (r : seed) (f : G -> A * G) (w : session) : A * session :=
  match r with
  | NoSeed => (fst (f (os_rng (opened w))), mkSession (generator w) (S (opened w)))
  | Seed z => (fst (f (new_rng z)), w)
  | TheGenerator => let '(a, g) := f (generator w) in (a, mkSession g (opened w))
  end.
(** rvs as it is called: Censored hands random_state on as it is (censored.py 170), every other class opens the generator. *)
Fixpoint rvs (d : dist) (s : size) (r : seed) (w : session) : res (nd xr) * session :=
  match d with
  | Censored b lower upper => let '(v, w) := rvs b s r w in (do v <- v; Ok (nd_map (fun x => np_clip x lower upper) v), w)
  | _ => with_rng r (rvs_rng d s) w
  end.
(** A session of calls of rvs (distributions.py 211-222). *)
Record call := mkCall { c_dist : dist; c_size : size; c_seed : seed }.
Fixpoint rvs_calls (l : list call) (w : session) : list (res (nd xr)) * session :=
  match l with
  | [] => ([], w)
  | c :: l => let '(v, w) := rvs (c_dist c) (c_size c) (c_seed c) w in let '(vs, w) := rvs_calls l w in (v :: vs, w)
  end.
End Rng.
