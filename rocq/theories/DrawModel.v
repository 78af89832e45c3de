(** Model of how a distribution with array parameters is drawn, of the check that the other methods make on parameters,
    and of what [mle] draws. Models /repo/preliz/internal/distribution_helper.py (lines 38-58), the method plot_pdf and
    [_unpack_distribution] of /repo/preliz/distributions/distributions.py (711-743, 1136-1142),
    /repo/preliz/internal/plot_helper.py (the styles of lines 158-187, and the labels of lines 314-331 and 718-733) and
    /repo/preliz/unidimensional/mle.py (82-99). *)
From Coq Require Import Reals List String Bool.
From Verif Require Import Base XR LawModel ExploreModel.
Import ListNotations.
Local Open Scope string_scope.
Local Open Scope list_scope.

(** The value of a parameter: a Python int or float, np.float64 (a float) or np.int64; another numpy scalar (np.int32,
    np.float32, a zero-dimensional array); or a one-dimensional array. Arrays of more dimensions are left out, and so is
    None, which a defined distribution does not hold. *)
Inductive pv := Num (x : xr) | OtherNum (x : xr) | Arr (l : list xr).
Definition plain_number (v : pv) : bool := match v with Num _ => true | _ => false end.

(** distribution_helper.py 38-58. [kind] is the attribute of that name. *)
Definition valid_scalar_params (frozen : bool) (kind class_name : string) (params : list pv) (check_frozen raise_error : bool) : res bool :=
  if negb frozen then (if check_frozen then Err ValueError else Ok false)
  else if negb (existsb (String.eqb kind) ["discrete"; "continuous"]) then Ok true
  else if forallb plain_number params || existsb (String.eqb class_name) ["Categorical"; "Mixture"] then Ok true
  else if raise_error then Err ValueError else Ok false.

(** np.atleast_1d; np.broadcast_arrays of one-dimensional arrays. *)
Definition atleast_1d (v : pv) : list xr := match v with Num x | OtherNum x => [x] | Arr l => l end.
Definition join_dims (a b : nat) : res nat :=
  if Nat.eqb a b then Ok a else if Nat.eqb a 1 then Ok b else if Nat.eqb b 1 then Ok a else Err ValueError.
Fixpoint broadcast_dim (ls : list (list xr)) : res nat :=
  match ls with [] => Ok 1%nat | l :: ls' => do n <- broadcast_dim ls'; join_dims (List.length l) n end.
Definition stretch (n : nat) (l : list xr) : list xr := match l with [x] => repeat x n | _ => l end.

(** distributions.py 1136-1142. A distribution without parameters gives no row. *)
Definition unpack (params : list (string * pv)) : res (list (list (string * xr))) :=
  match params with
  | [] => Ok []
  | _ => do n <- broadcast_dim (map (fun kv => atleast_1d (snd kv)) params);
         Ok (map (fun i => map (fun kv => (fst kv, nth i (stretch n (atleast_1d (snd kv))) NaN)) params) (seq 0 n))
  end.

(** Objects. A modifier (Truncated, Censored, Hurdle) refers to its base distribution; [copy] copies the reference. The
    store holds the parameters of base distributions. What a method of an object sees is its own parameters and those of
    the base at that moment. *)
Definition loc := nat.
Definition store := loc -> list (string * pv).
Record obj := { o_params : list (string * pv); o_own : list string; o_base : option loc }.
Definition view (s : store) (o : obj) : list (string * pv) * option (list (string * pv)) :=
  (o_params o, match o_base o with Some l => Some (s l) | None => None end).
Definition write (s : store) (l : loc) (p : list (string * pv)) : store := fun l' => if Nat.eqb l' l then p else s l'.

(** [_parametrization] with scalar arguments: a family keeps them (the conversions of each family are FamModel's); a
    modifier hands those of the base on to it (truncated.py 48-76, censored.py 51-80, hurdle.py 55-75). The names of the base are taken to be
    different from those of the modifier (those of a Uniform are not: see PymcProps). *)
Definition scalars (kv : list (string * xr)) : list (string * pv) := map (fun p => (fst p, Num (snd p))) kv.
Definition reparam (s : store) (o : obj) (kv : list (string * xr)) : store * obj :=
  let o' := {| o_params := scalars kv; o_own := o_own o; o_base := o_base o |} in
  match o_base o with
  | None => (s, o')
  | Some l => (write s l (scalars (filter (fun p => negb (existsb (String.eqb (fst p)) (o_own o))) kv)), o')
  end.

(** plot_helper.py 158-187: the keywords a curve is drawn with. For most discrete families the line style and the marker
    are taken out of the dictionary, which the loop of plot_pdf passes on to the next curve. *)
Inductive look := Line | Dots | Points.   (* continuous; most discrete; Categorical and Bernoulli *)
Definition drawn_with (lk : look) (kw : kwargs) : kwargs * kwargs :=
  match lk with
  | Line => (kw, kw)
  | Points => (kw, kw)
  | Dots =>
    let ls := match getkw "ls" kw with Some v => v | None => VStr "dotted" end in
    let marker := match getkw "marker" kw with Some v => v | None => VStr "o" end in
    let kw' := pop "marker" (pop "ls" kw) in
    (kw', ("ls", ls) :: ("marker", marker) :: kw')
  end.

(** distributions.py 711-743: what plot_pdf draws, in order: for each curve what the object looked like at that moment
    and the keywords. [scalar] is the outcome of the check, called with raise_error=False. *)
Definition curve := (list (string * pv) * option (list (string * pv)) * kwargs)%type.
Fixpoint plot_rows (lk : look) (s : store) (o : obj) (kw : kwargs) (rows : list (list (string * xr))) : store * list curve :=
  match rows with
  | [] => (s, [])
  | row :: rows' =>
    let (s1, other) := reparam s o row in
    let (kw1, used) := drawn_with lk kw in
    let (s2, cs) := plot_rows lk s1 o kw1 rows' in
    (s2, (view s1 other, used) :: cs)
  end.
Definition plot_pdf (frozen : bool) (kind class_name : string) (lk : look) (s : store) (o : obj) (kw : kwargs) : res (store * list curve) :=
  do scalar <- valid_scalar_params frozen kind class_name (map snd (o_params o)) true false;
  if scalar then Ok (s, [(view s o, snd (drawn_with lk kw))])
  else do rows <- unpack (o_params o); Ok (plot_rows lk s o kw rows).

(** distributions.py 368-385 for any sequence of strings, and plot_helper.py 314-331, 718-733: the label of a curve. The
    text of the moments is not modelled. [substring] is the test for a substring of the letters. *)
Fixpoint is_prefix (a b : string) : bool :=
  match a, b with
  | EmptyString, _ => true
  | String x a', String y b' => Ascii.eqb x y && is_prefix a' b'
  | _, EmptyString => false
  end.
Fixpoint substring (a b : string) : bool :=
  is_prefix a b || match b with EmptyString => false | String _ b' => substring a b' end.
Fixpoint moments_of (types : list string) : res unit :=
  match types with
  | [] => Ok tt
  | m :: types' => if substring m "mdvsk" then moments_of types' else Err ValueError
  end.

(** mle.py 93-97: the candidates drawn. The dictionary of keywords is passed as the first positional argument of
    plot_pdf, which is [moments]; iterating over a dictionary gives its keys. [order] is [idx]. *)
Definition mle_drawn {D} (frozen : D -> bool) (fitted : list D) (order : list nat) (plot : nat) : list D :=
  let plot := Nat.min plot (List.length fitted) in
  flat_map (fun i => match nth_error fitted i with Some d => if frozen d then [d] else [] | None => [] end) (firstn plot order).
Definition mle_plot {D} (frozen : D -> bool) (fitted : list D) (order : list nat) (plot : nat) (plot_kwargs : option kwargs) : res (list D) :=
  match mle_drawn frozen fitted order plot with
  | [] => Ok []
  | ds => match plot_kwargs with
          | None => Ok ds
          | Some kw => do _ <- moments_of (map fst kw); Ok ds
          end
  end.
