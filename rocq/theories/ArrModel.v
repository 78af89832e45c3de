(** Model of what the modifiers of distributions (Truncated, Censored, Hurdle, Mixture) and the generic quantile function
    do with the different things a method can be given: a number, a Python list of numbers or a numpy array, of integers
    or of floats. ModModel.v and MixModel.v describe one number at a time; here the arrays are explicit.
    Simplifications: arrays have no or one dimension; integers do not overflow; booleans are not considered. *)
From Coq Require Import List Bool ZArith Reals.
From Flocq Require Import Core.
From Verif Require Import Base RLists XR LawModel ModModel MixModel.
Import ListNotations.
Open Scope R_scope.

(* ------------------------------------------------------ numpy *)
Inductive dtype := IntT | FloatT.
(** [a_0d]: the array has no dimension, it is one number. *)
Record arr := { a_type : dtype; a_0d : bool; a_vals : list xr }.
Inductive num := PyInt (z : Z) | PyFloat (x : xr).
Inductive arg := Num (n : num) | PyList (l : list num) | Arr (a : arr).

Definition num_val (n : num) : xr := match n with PyInt z => Fin (IZR z) | PyFloat x => x end.
Definition num_int (n : num) : bool := match n with PyInt _ => true | PyFloat _ => false end.
(** np.asarray. *)
Definition asarray (x : arg) : arr :=
  match x with
  | Num n => {| a_type := if num_int n then IntT else FloatT; a_0d := true; a_vals := [num_val n] |}
  | PyList l => {| a_type := match l with [] => FloatT | _ => if forallb num_int l then IntT else FloatT end;
                   a_0d := false; a_vals := map num_val l |}
  | Arr a => a
  end.
(** A float array of the same shape. *)
Definition like (a : arr) (vals : list xr) : arr := {| a_type := FloatT; a_0d := a_0d a; a_vals := vals |}.

Fixpoint vmap2 {A B C} (f : A -> B -> C) (a : list A) (b : list B) : list C :=
  match a, b with x :: a, y :: b => f x y :: vmap2 f a b | _, _ => [] end.
(** np.where(mask, c, v) and np.where(mask, u, v). *)
Definition where_c (mask : list bool) (c : xr) (v : list xr) : list xr := vmap2 (fun m y => if m : bool then c else y) mask v.
Definition vor (a b : list bool) : list bool := vmap2 orb a b.
(** q[mask], and vals[mask] = new. *)
Fixpoint select (mask : list bool) (v : list xr) : list xr :=
  match mask, v with
  | true :: m, y :: v => y :: select m v
  | false :: m, _ :: v => select m v
  | _, _ => []
  end.
Fixpoint scatter (mask : list bool) (vals new : list xr) : list xr :=
  match mask, vals with
  | true :: m, y :: v => match new with n :: new => n :: scatter m v new | [] => y :: v end
  | false :: m, y :: v => y :: scatter m v new
  | _, _ => vals
  end.

(** The methods of the wrapped distribution on arrays: distribution_helper.py 108-137 (pytensor_jit, np.asarray of every
    argument). A single number is an array of one. *)
Record vmethods := {
  v_kind : kind;
  v_cdf : list xr -> list xr;
  v_ppf : list xr -> list xr;
  v_pdf : list xr -> list xr;
  v_logpdf : list xr -> list xr }.
Definition at1 (f : list xr -> list xr) (x : xr) : xr := hd NaN (f [x]).

(* ------------------------------------------------------ truncated.py *)
(** truncated.py 127-132. *)
Definition vt_cdf (d : vmethods) (lower upper : xr) (x : arg) : arr :=
  let x := asarray x in
  let lo := adjust_lower (v_kind d) lower in
  let lcdf := at1 (v_cdf d) lo in
  let den := xsub (at1 (v_cdf d) upper) lcdf in
  let vals := map (fun c => xdiv (xsub c lcdf) den) (v_cdf d (a_vals x)) in
  like x (where_c (map (fun x => xltb x lo) (a_vals x)) (Fin 0)
            (where_c (map (fun x => xltb upper x) (a_vals x)) (Fin 1) vals)).
(** truncated.py 134-139. *)
Definition vt_ppf (d : vmethods) (lower upper : xr) (q : arg) : arr :=
  let q := asarray q in
  let lo := adjust_lower (v_kind d) lower in
  let lcdf := at1 (v_cdf d) lo in
  let width := xsub (at1 (v_cdf d) upper) lcdf in
  let vals := v_ppf d (map (fun q => xadd lcdf (xmul q width)) (a_vals q)) in
  like q (where_c (vor (map (fun q => xltb q (Fin 0)) (a_vals q)) (map (fun q => xltb (Fin 1) q) (a_vals q))) NaN vals).
(** truncated.py 141-145 and 124-125. *)
Definition vt_logpdf (d : vmethods) (lower upper : xr) (x : arg) : arr :=
  let x := asarray x in
  let lo := adjust_lower (v_kind d) lower in
  let norm := xlog (xsub (at1 (v_cdf d) upper) (at1 (v_cdf d) lo)) in
  let vals := map (fun l => xsub l norm) (v_logpdf d (a_vals x)) in
  like x (where_c (vor (map (fun x => xltb x lower) (a_vals x)) (map (fun x => xltb upper x) (a_vals x))) NInf vals).
Definition vt_pdf (d : vmethods) (lower upper : xr) (x : arg) : arr :=
  let r := vt_logpdf d lower upper x in like r (map xexp (a_vals r)).

(** truncated.py 65-68 and 160-163: [self.lower] is what the caller gave. If it is a number, [lower -= 1] makes a new
    number; if it is a numpy array without dimensions, it changes that array, which is [self.lower]. *)
Inductive bound := Number (x : xr) | Cell (x : xr).
Definition bound_val (b : bound) : xr := match b with Number x | Cell x => x end.
(** The value the function goes on with, and self.lower afterwards. *)
Definition adjust_lower_obj (k : kind) (b : bound) : xr * bound :=
  match k, b with
  | Discrete, Number x => (xsub x (Fin 1), b)
  | Discrete, Cell x => (xsub x (Fin 1), Cell (xsub x (Fin 1)))
  | Continuous, _ => (bound_val b, b)
  end.
(** truncated.py 127-132 for one number, with the object's state. *)
Definition t_cdf_obj (d : methods) (b : bound) (upper x : xr) : xr * bound :=
  let '(lower, b') := adjust_lower_obj (kind_of d) b in
  let lcdf := m_cdf d lower in
  let vals := xdiv (xsub (m_cdf d x) lcdf) (xsub (m_cdf d upper) lcdf) in
  (if xltb x lower then Fin 0 else if xltb upper x then Fin 1 else vals, b').
Fixpoint t_cdf_times (n : nat) (d : methods) (b : bound) (upper x : xr) : list xr * bound :=
  match n with
  | O => ([], b)
  | S n => let '(v, b1) := t_cdf_obj d b upper x in
           let '(l, b2) := t_cdf_times n d b1 upper x in (v :: l, b2)
  end.

(* ------------------------------------------------------ censored.py *)
(** censored.py 175-178. *)
Definition vc_cdf (d : vmethods) (lower upper : xr) (x : arg) : arr :=
  let x := asarray x in
  let vals := v_cdf d (a_vals x) in
  like x (where_c (map (fun x => xltb x lower) (a_vals x)) (Fin 0)
            (where_c (map (fun x => xltb upper x) (a_vals x)) (Fin 1) vals)).
(** censored.py 180-181. *)
Definition vc_ppf (d : vmethods) (lower upper : xr) (q : arg) : arr :=
  let q := asarray q in like q (map (fun y => np_clip y lower upper) (v_ppf d (a_vals q))).
(** censored.py 183-194. *)
Definition vc_logpdf (d : vmethods) (lower upper : xr) (x : arg) : arr :=
  let x := asarray x in
  let vals := v_logpdf d (a_vals x) in
  let vals := where_c (vor (map (fun x => xltb x lower) (a_vals x)) (map (fun x => xltb upper x) (a_vals x))) NInf vals in
  let vals := where_c (map (fun x => xeqb x lower) (a_vals x)) (xlog (at1 (v_cdf d) lower)) vals in
  let last := match v_kind d with
              | Discrete => xlog1p (xneg (at1 (v_cdf d) (xsub upper (Fin 1))))
              | Continuous => xlog1p (xneg (at1 (v_cdf d) upper))
              end in
  like x (where_c (map (fun x => xeqb x upper) (a_vals x)) last vals).

(* ------------------------------------------------------ hurdle.py *)
(** The outcome of comparing the argument with 0: numpy compares every entry, a Python list is not equal to 0, and
    cannot be ordered against it. *)
Inductive mask := Each (l : list bool) | All (b : bool).
Definition eq_zero (x : arg) : mask :=
  match x with PyList _ => All false | _ => Each (map (fun y => xeqb y (Fin 0)) (a_vals (asarray x))) end.
Definition le_zero (x : arg) : res mask :=
  match x with PyList _ => Err TypeError | _ => Ok (Each (map (fun y => xleb y (Fin 0)) (a_vals (asarray x)))) end.
(** np.where with a mask of either sort. *)
Definition where_m (m : mask) (c : xr) (v : list xr) : list xr :=
  match m with Each l => where_c l c v | All b => map (fun y => if b then c else y) v end.
(** hurdle.py 113-121. [self.dist == "discrete"] compares an object with a string and is never true. *)
Definition vh_pdf (d : vmethods) (psi : xr) (x : arg) : arr :=
  let den := xsub (Fin 1) (at1 (v_cdf d) (Fin eps)) in
  let vals := map (fun p => xdiv (xmul psi p) den) (v_pdf d (a_vals (asarray x))) in
  like (asarray x) (where_m (eq_zero x) (xsub (Fin 1) psi) vals).
(** hurdle.py 123-133. *)
Definition vh_cdf (d : vmethods) (psi : xr) (x : arg) : res arr :=
  do m <- le_zero x;
  let den := xsub (Fin 1) (at1 (v_cdf d) (Fin eps)) in
  let vals := map (fun c => xsub (Fin 1) (xdiv (xmul psi (xsub (Fin 1) c)) den)) (v_cdf d (a_vals (asarray x))) in
  Ok (like (asarray x) (where_m m (xsub (Fin 1) psi) vals)).
(** hurdle.py 149-162. *)
Definition vh_logpdf (d : vmethods) (psi : xr) (x : arg) : arr :=
  let norm := xlog (xsub (Fin 1) (at1 (v_cdf d) (Fin eps))) in
  let vals := map (fun l => xsub (xadd (xlog psi) l) norm) (v_logpdf d (a_vals (asarray x))) in
  like (asarray x) (where_m (eq_zero x) (xlog (xsub (Fin 1) psi)) vals).

Section Casts.
(** What numpy stores when an infinity or a nan is cast to an integer, as [vals[mask] = floats] does: some integer. *)
Variable cast_garbage : xr -> Z.
Definition cast (t : dtype) (x : xr) : xr :=
  match t, x with
  | FloatT, _ => x
  | IntT, Fin r => Fin (IZR (Ztrunc r))
  | IntT, _ => Fin (IZR (cast_garbage x))
  end.
(** hurdle.py 135-147. [np.zeros_like(q)] has the type of [q]. *)
Definition vh_ppf (d : vmethods) (psi : xr) (q : arg) : arr :=
  let lower := match v_kind d with Discrete => Fin 0 | Continuous => Fin eps end in
  let q := asarray q in
  let lcdf := at1 (v_cdf d) lower in
  let vals := map (fun _ => Fin 0) (a_vals q) in
  let m := map (fun q => xleb (xsub (Fin 1) psi) q) (a_vals q) in
  let new := v_ppf d (map (fun q => xadd lcdf (xdiv (xmul (xsub q (xsub (Fin 1) psi)) (xsub (Fin 1) lcdf)) psi))
                          (select m (a_vals q))) in
  let vals := scatter m vals (map (cast (a_type q)) new) in
  like q (where_c (vor (map (fun q => xltb q (Fin 0)) (a_vals q)) (map (fun q => xltb (Fin 1) q) (a_vals q))) NaN vals).
End Casts.

(* ------------------------------------------------------ mixture.py *)
(** mixture.py 77-85: the rows of the components, added column by column. *)
Definition columns (n : nat) (f : list xr -> xr) (rows : list (list xr)) : list xr :=
  map (fun i => f (map (fun r => nth i r NaN) rows)) (seq 0 n).
Definition vmix (f : vmethods -> list xr -> list xr) (dists : list vmethods) (weights : list xr) (x : arg) : arr :=
  let x := asarray x in
  like x (columns (length (a_vals x)) xsum
            (map (fun dw => map (fun y => xmul y (snd dw)) (f (fst dw) (a_vals x))) (combine dists weights))).
(** mixture.py 90-94. *)
Definition vmix_logpdf (dists : list vmethods) (weights : list xr) (x : arg) : arr :=
  let x := asarray x in
  like x (columns (length (a_vals x)) logsumexp
            (map (fun dw => map (fun y => xadd (xlog (snd dw)) y) (v_logpdf (fst dw) (a_vals x))) (combine dists weights))).

(* ------------------------------------------------------ optimization.py: find_ppf *)
Section FindPpf.
(** Storing an infinity in an entry of an array of integers raises or stores some integer, depending on the version of
    numpy and on whether it is a Python or a numpy float. *)
Variable store_inf : bool -> res Z.
(** ppf[idx] = x. np.nan is a Python float: int(nan) raises ValueError. A bound of the support is not nan. *)
Definition store (t : dtype) (x : xr) : res xr :=
  match t, x with
  | FloatT, _ => Ok x
  | IntT, Fin r => Ok (Fin (IZR (Ztrunc r)))
  | IntT, NaN => Err ValueError
  | IntT, PInf => match store_inf true with Ok z => Ok (Fin (IZR z)) | Err e => Err e end
  | IntT, NInf => match store_inf false with Ok z => Ok (Fin (IZR z)) | Err e => Err e end
  end.
(** optimization.py 587-607: the loop over the entries. [single q] is the value MixModel.find_ppf describes, None if a
    loop of _ppf_single is still running. *)
Fixpoint fill (t : dtype) (single : xr -> option xr) (qs : list xr) : option (res (list xr)) :=
  match qs with
  | [] => Some (Ok [])
  | q :: r =>
      match single q with
      | None => None
      | Some v => match store t v with
                  | Err e => Some (Err e)
                  | Ok v => match fill t single r with
                            | None => None
                            | Some (Err e) => Some (Err e)
                            | Some (Ok l) => Some (Ok (v :: l))
                            end
                  end
      end
  end.
(** np.atleast_1d(q), and [ppf[0] if len(ppf) == 1 else ppf]. *)
Definition vfind_ppf (single : xr -> option xr) (q : arg) : option (res arr) :=
  let q := asarray q in
  match fill (a_type q) single (a_vals q) with
  | None => None
  | Some (Err e) => Some (Err e)
  | Some (Ok l) => Some (Ok {| a_type := a_type q; a_0d := Nat.eqb (length l) 1; a_vals := l |})
  end.
End FindPpf.
