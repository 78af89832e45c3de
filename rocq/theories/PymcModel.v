(** Model of the conversions between PyMC or Prior objects and PreliZ distributions: preliz/ppls/pymc_io.py
    (from_pymc, from_prior, _reparametrize, _nan_to_none) and Distribution.to_pymc, to_bambi. *)
From Coq Require Import List Bool String Reals Arith.
From Verif Require Import Base XR FamModel BoundModel CatModel.
Import ListNotations.
Open Scope R_scope.
Open Scope string_scope.

(** A PyMC variable: the printed name of its operation (owner.op._print_name[0]) and owner.inputs. An input is a random
    generator or a size (nothing numeric), a number, an array of numbers or another variable. Simplification: parameters are
    single numbers; only weights are arrays. *)
Inductive input := Skip | Num (x : xr) | Vec (l : list xr) | Sub (n : node)
with node := Node (print_name : string) (inputs : list input).

(** A PreliZ distribution: an instance of a univariate family, or a modifier called with the given arguments. [None] is a
    parameter that is not set. *)
Inductive pz :=
| PzFam (f : family) (d : dist)
| PzTruncated (base : pz) (lower upper : xr)
| PzCensored (base : pz) (lower upper : xr)
| PzHurdle (base : pz) (psi : option xr)
| PzMixture (components : list pz) (weights : list (option xr)).

(** Whether every entry of [params] is given, as mixture.py 73 asks of its components (distribution_helper.py 24-28): the parameters of what is modified and
    psi. The weights of a mixture are one entry, a list. *)
Fixpoint pz_frozen (x : pz) : bool :=
  match x with
  | PzFam _ d => frozen d
  | PzTruncated base _ _ | PzCensored base _ _ => pz_frozen base
  | PzHurdle base psi => pz_frozen base && match psi with Some _ => true | None => false end
  | PzMixture cs _ => forallb pz_frozen cs
  end.
(** mixture.py 38-75: if all components have their parameters, the weights are divided by their sum, and a weight that is not known (None) is a
    TypeError. [PzMixture] holds the weights as given. Simplification: that all components are of one kind is left to PyMC. *)
Definition make_mixture (cs : list pz) (ws : list (option xr)) : res pz :=
  if forallb pz_frozen cs && existsb (fun w => match w with None => true | Some _ => false end) ws then Err TypeError else Ok (PzMixture cs ws).
(** mixture.py 71-75: self.weights. *)
Definition used_weights (cs : list pz) (ws : list (option xr)) : list (option xr) :=
  if forallb pz_frozen cs then
    let total := fold_right (fun w s => match w with Some x => xadd x s | None => s end) (Fin 0) ws in
    map (option_map (fun x => xdiv x total)) ws
  else ws.

(** pymc_io.py 429-448 on single numbers. *)
Definition nan_to_none (x : xr) : option xr := if xisnan x then None else Some x.

(** [Class( *values )] and [Class( **values )]: too many values and unknown names are a TypeError. *)
Fixpoint assoc {A} (k : string) (l : list (string * A)) : option A :=
  match l with [] => None | (k', v) :: r => if String.eqb k' k then Some v else assoc k r end.
Definition flat {A} (o : option (option A)) : option A := match o with Some v => v | None => None end.
Section Convert.
Variable ptd_ig : xr -> xr -> xr * xr.
Definition call_positional (f : family) (vals : list (option xr)) : res dist :=
  if Nat.ltb (List.length (signature f)) (List.length vals) then Err TypeError
  else construct ptd_ig f (fun k => flat (assoc k (combine (signature f) vals))).
Definition call_keywords (f : family) (kw : list (string * option xr)) : res dist :=
  if forallb (fun p => existsb (String.eqb (fst p)) (signature f)) kw
  then construct ptd_ig f (fun k => flat (assoc k kw)) else Err TypeError.

(** pymc_io.py 380-426. Unpacking a list of another length is a ValueError, [[0]] of an empty one an IndexError. Python
    floats divide (ZeroDivisionError), except under Rice where the factors are numpy values. *)
Definition inverse (o : option xr) : res (option xr) := match o with Some x => do y <- pydiv (Fin 1) x; Ok (Some y) | None => Ok None end.
Definition reparametrize (f : family) (ins : list xr) : res dist :=
  let none := map nan_to_none ins in
  match f with
  | AsymmetricLaplace => match none with
                         | [b; kappa; mu] => call_keywords f [("mu", mu); ("b", b); ("kappa", kappa)]
                         | _ => Err ValueError end
  | Exponential => match none with
                   | [] => Err IndexError
                   | scale :: _ => do lam <- inverse scale; call_positional f [lam] end
  | Gamma => match none with
             | [alpha; inv_beta] => do beta <- inverse inv_beta; call_keywords f [("alpha", alpha); ("beta", beta)]
             | _ => Err ValueError end
  | Rice => match ins with
            | [b; sigma] => call_keywords f [("nu", nan_to_none (xmul b sigma)); ("sigma", nan_to_none sigma)]
            | _ => Err ValueError end
  | SkewStudentT => match none with
                    | [a; b; mu; sigma] => call_keywords f [("mu", mu); ("sigma", sigma); ("a", a); ("b", b)]
                    | _ => Err ValueError end
  | Wald => match none with
            | [mu; lam; _] => call_keywords f [("mu", mu); ("lam", lam)]
            | _ => Err ValueError end
  | BetaBinomial => match none with
                    | [n; alpha; beta] => call_keywords f [("alpha", alpha); ("beta", beta); ("n", n)]
                    | _ => Err ValueError end
  | NegativeBinomial => match none with
                        | [n; p] =>
                            do mu <- match p, n with
                                     | Some p, Some n => do m <- pydiv (xmul n (xsub (Fin 1) p)) p; Ok (Some m)
                                     | _, _ => Ok None end;
                            call_keywords f [("mu", mu); ("alpha", n)]
                        | _ => Err ValueError end
  | HyperGeometric => match none with
                      | [good; bad; n] =>
                          let N := match good, bad with Some g, Some b => Some (xadd g b) | _, _ => None end in
                          call_keywords f [("N", N); ("k", good); ("n", n)]
                      | _ => Err ValueError end
  | _ => call_positional f none
  end.

(** getattr(modules["preliz.distributions"], name): here only the univariate families; the classes that take vectors
    (Categorical, Dirichlet, MvNormal) are left out of this model. *)
Definition family_of (name : string) : option family :=
  match get_dist_class name with Ok (Fam f) => Some f | _ => None end.

(** Inputs that evaluate to numbers, in order (pymc_io.py 316-325). *)
Fixpoint numbers (l : list input) : list xr :=
  match l with [] => [] | Num x :: r => x :: numbers r | _ :: r => numbers r end.
(** Inputs that must evaluate to numbers (pymc_io.py 273, 293, 312): a size or a generator in their place breaks the
    unpacking or the constructor; the exception is written TypeError here. *)
Fixpoint all_numbers (l : list input) : res (list xr) :=
  match l with
  | [] => Ok []
  | Num x :: r => do t <- all_numbers r; Ok (x :: t)
  | _ :: _ => Err TypeError
  end.
Definition at_ (l : list input) (i : nat) : res input := match nth_error l i with Some x => Ok x | None => Err IndexError end.
Definition from_end (l : list input) (i : nat) : res input := at_ (rev l) (i - 1).
Definition drop_end (k : nat) (l : list input) : list input := firstn (List.length l - k) l.
Definition number (i : input) : res xr := match i with Num x => Ok x | _ => Err TypeError end.
Definition vector (i : input) : res (list xr) := match i with Vec l => Ok l | _ => Err TypeError end.
Definition owner (i : input) : res (string * list input) := match i with Sub (Node s l) => Ok (s, l) | _ => Err AttributeError end.
Definition or_default (x default : xr) : xr := if xisnan x then default else x.

(** [name.split("Truncated")[1]] and [name.replace("Truncated", "")] for names that contain the word at most once and, if
    at all, at the beginning. *)
Definition after_truncated (name : string) : option string :=
  if String.prefix "Truncated" name then Some (substring 9 (String.length name - 9) name) else None.

(** pymc_io.py 316-332: an ordinary variable. *)
Definition plain (name : string) (inputs : list input) : res pz :=
  let ins := if String.eqb name "HalfNormal" then skipn 3 inputs
             else if String.eqb name "LogitNormal" then skipn 1 inputs else skipn 2 inputs in
  match family_of name with
  | None => Err RuntimeError                                  (* NotImplementedError *)
  | Some f => do d <- reparametrize f (numbers ins); Ok (PzFam f d)
  end.

(** pymc_io.py 242-332. *)
Fixpoint from_pymc (v : node) : res pz :=
  match v with
  | Node name inputs =>
      if String.eqb name "Censored" then
        match inputs with
        | base :: rest =>
            do l <- at_ rest 0; do lower <- number l; do u <- at_ rest 1; do upper <- number u;
            do b <- (match base with Sub n => from_pymc n | _ => Err AttributeError end);
            Ok (PzCensored b (or_default lower NInf) (or_default upper PInf))
        | [] => Err IndexError
        end
      else match (if String.eqb name "TruncatedNormal" then None else after_truncated name) with
      | Some base_name =>
          do base_params <- all_numbers (drop_end 2 (skipn 2 inputs));
          do l <- from_end inputs 2; do lower <- number l; do u <- from_end inputs 1; do upper <- number u;
          match family_of base_name with
          | None => Err AttributeError
          | Some f => do d <- reparametrize f base_params;
                      Ok (PzTruncated (PzFam f d) (or_default lower NInf) (or_default upper PInf))
          end
      | None =>
      if String.eqb name "Mixture" then
        do i2 <- at_ inputs 2; do o2 <- owner i2;
        if String.eqb (fst o2) "DiracDelta" then
          do last <- from_end inputs 1; do base <- owner last;
          do base_params <- all_numbers (skipn 2 (snd base));
          do w <- at_ inputs 1; do ws <- vector w;
          do psi <- match nth_error ws 1 with Some p => Ok (nan_to_none p) | None => Err IndexError end;
          match family_of ("ZeroInflated" ++ fst base) with
          | None => Err AttributeError
          | Some f =>
              do ps <- (if String.eqb (fst base) "NegativeBinomial" then
                          match base_params with
                          | [n; p] => Ok [xdiv (xmul n (xsub (Fin 1) p)) p; n]
                          | _ => Err ValueError end
                        else Ok base_params);
              do d <- call_positional f (psi :: map nan_to_none ps); Ok (PzFam f d)
          end
        else
          match inputs with
          | _ :: w :: components =>
              do ws <- vector w;
              do cs <- (fix go l := match l with
                                    | [] => Ok []
                                    | i :: r => do x <- (match i with Sub n => from_pymc n | _ => Err AttributeError end);
                                                do xs <- go r; Ok (x :: xs)
                                    end) components;
              make_mixture cs (map nan_to_none ws)
          | _ => Err IndexError
          end
      else if String.eqb name "Hurdle" then
        do last <- from_end inputs 1; do base <- owner last;
        let base_name := match after_truncated (fst base) with Some n => n | None => fst base end in
        do w <- at_ inputs 1; do ws <- vector w;
        do psi <- match rev ws with p :: _ => Ok (nan_to_none p) | [] => Err IndexError end;
        do base_params <- all_numbers (skipn 2 (snd base));
        match family_of base_name with
        | None => Err AttributeError
        | Some f => do d <- reparametrize f base_params; Ok (PzHurdle (PzFam f d) psi)
        end
      else plain name inputs
      end
  end.

(* ------------------------------------------------------------ Prior objects *)
(** prior.distribution and prior.to_dict()["kwargs"]: numbers, one nested distribution, or a list of priors. *)
Inductive pvalue := PNum (x : xr) | PDist (name : string) (kw : list (string * xr)) | PList (l : list xr) | PPriors (l : list prior)
with prior := mkPrior (name : string) (kwargs : list (string * pvalue)).
Definition some_numbers (kw : list (string * pvalue)) : res (list (string * option xr)) :=
  map_res (fun p => match snd p with PNum x => Ok (fst p, Some x) | _ => Err TypeError end) kw.
Definition get_number (k : string) (kw : list (string * pvalue)) : res (option xr) :=
  match assoc k kw with None => Ok None | Some (PNum x) => Ok (Some x) | Some _ => Err TypeError end.
(** pymc_io.py 335-372. The constructors of Truncated and Censored turn a missing bound into an infinite
    one (truncated.py 60-68, censored.py 63-71). *)
Fixpoint from_prior (p : prior) : res pz :=
  match p with mkPrior name kw =>
  if String.eqb name "Truncated" || String.eqb name "Censored" then
    match assoc "dist" kw with
    | None => Err KeyError
    | Some (PDist base_name base_kw) =>
        match family_of base_name with
        | None => Err AttributeError
        | Some f =>
            do d <- call_keywords f (map (fun p => (fst p, Some (snd p))) base_kw);
            do lower <- get_number "lower" kw; do upper <- get_number "upper" kw;
            let lower := match lower with Some x => x | None => NInf end in
            let upper := match upper with Some x => x | None => PInf end in
            Ok (if String.eqb name "Truncated" then PzTruncated (PzFam f d) lower upper else PzCensored (PzFam f d) lower upper)
        end
    | Some _ => Err TypeError
    end
  else if String.prefix "Hurdle" name then
    match family_of (substring 6 (String.length name - 6) name) with
    | None => Err AttributeError
    | Some f =>
        do base_kw <- some_numbers (filter (fun p => negb (String.eqb (fst p) "psi")) kw);
        do d <- call_keywords f base_kw;
        match assoc "psi" kw with
        | None => Err KeyError
        | Some (PNum psi) => Ok (PzHurdle (PzFam f d) (Some psi))
        | Some _ => Err TypeError
        end
    end
  else if String.eqb name "Mixture" then
    do cs <- (fix look kw := match kw with
                             | [] => Err KeyError
                             | (k, v) :: r =>
                                 if String.eqb "comp_dists" k then
                                   match v with
                                   | PPriors l => (fix go l := match l with
                                                               | [] => Ok []
                                                               | q :: r => do x <- from_prior q; do xs <- go r; Ok (x :: xs)
                                                               end) l
                                   | _ => Err TypeError
                                   end
                                 else look r
                             end) kw;
    match assoc "w" kw with
    | None => Err KeyError
    | Some (PList ws) => make_mixture cs (map Some ws)
    | Some _ => Err TypeError
    end
  else match family_of name with
       | None => Err ValueError
       | Some f => do k <- some_numbers kw; do d <- call_keywords f k; Ok (PzFam f d)
       end
  end.

(* ------------------------------------------------------------ to PyMC and Bambi *)
(** A call of a PyMC class, or of bambi.Prior: the name of the class and its arguments. *)
Inductive pmcall :=
| PmPlain (name : string) (kw : list (string * option xr))
| PmBounded (name : string) (base : pmcall) (lower upper : xr)
| PmMixture (weights : list (option xr)) (components : list pmcall)
| PmWeighted (name : string) (kw : list (string * option xr)) (weights : list (option xr)).   (* a prior with a keyword [weights] *)

Definition has_class (pm : list string) (name : string) : bool := existsb (String.eqb name) pm.
Definition pz_name (x : pz) : string :=
  match x with
  | PzFam f _ => family_name f | PzTruncated _ _ _ => "Truncated" | PzCensored _ _ _ => "Censored"
  | PzHurdle _ _ => "Hurdle" | PzMixture _ _ => "Mixture"
  end.
(** dict(zip(names, values)): a later value replaces an earlier one under the same name. *)
Fixpoint put {A} (k : string) (x : A) (l : list (string * A)) : list (string * A) :=
  match l with
  | [] => [(k, x)]
  | (k', y) :: r => if String.eqb k' k then (k', x) :: r else (k', y) :: put k x r
  end.
Definition dict {A} (l : list (string * A)) : list (string * A) := fold_left (fun acc p => put (fst p) (snd p) acc) l [].
(** params_dict (distributions.py 116-121) of a family, or of a modifier of a family: the parameters of the base followed by
    those of the modifier (truncated.py 70-71, censored.py 73-74, hurdle.py 67-69). Simplification: modifiers of modifiers
    have none here. *)
Definition params_dict_of (x : pz) : option (list (string * option xr)) :=
  match x with
  | PzFam _ d => params_dict d
  | PzHurdle (PzFam _ d) psi => option_map (fun l => dict (l ++ [("psi", psi)])) (params_dict d)
  | PzTruncated (PzFam _ d) lower upper | PzCensored (PzFam _ d) lower upper =>
      option_map (fun l => dict (l ++ [("lower", Some lower); ("upper", Some upper)])) (params_dict d)
  | _ => None
  end.
(** [**None] is a TypeError. *)
Definition kwargs_of (x : pz) : res (list (string * option xr)) :=
  match params_dict_of x with Some l => Ok l | None => Err TypeError end.
(** distributions.py 482-547. [pm] lists the classes of pymc.distributions, [context] says whether a model is active.
    Outside of a model the inner distribution is converted by its own to_pymc; inside of one its class is looked up by name. *)
Section ToPymc.
Variables (pm : list string) (context : bool).
Definition inner (x : pz) : res pmcall :=
  if negb (has_class pm (pz_name x)) then Err AttributeError else
  do kw <- kwargs_of x;
  match x with
  | PzTruncated _ _ _ | PzCensored _ _ _ | PzMixture _ _ => Err TypeError   (* the distribution to modify is missing *)
  | _ => Ok (PmPlain (pz_name x) kw)
  end.
Fixpoint to_pymc (x : pz) : res pmcall :=
  match x with
  | PzTruncated base lower upper =>
      if negb (has_class pm "Truncated") then Err AttributeError else
      do b <- (if context then inner base else to_pymc base); Ok (PmBounded "Truncated" b lower upper)
  | PzCensored base lower upper =>
      if negb (has_class pm "Censored") then Err AttributeError else
      do b <- (if context then inner base else to_pymc base); Ok (PmBounded "Censored" b lower upper)
  | PzMixture cs ws =>
      if negb (has_class pm "Mixture") then Err AttributeError else
      do l <- (fix go l := match l with
                           | [] => Ok []
                           | c :: r => do x <- (if context then inner c else to_pymc c); do xs <- go r; Ok (x :: xs)
                           end) cs;
      Ok (PmMixture (used_weights cs ws) l)
  | PzHurdle base psi =>
      let name := "Hurdle" ++ pz_name base in
      if negb (has_class pm name) then Err AttributeError else do kw <- kwargs_of x; Ok (PmPlain name kw)
  | PzFam f d =>
      if negb (has_class pm (family_name f)) then Err AttributeError else do kw <- kwargs_of x; Ok (PmPlain (family_name f) kw)
  end.
End ToPymc.
(** The parameters of all components of a mixture of families, one after the other (mixture.py 51-66). *)
Fixpoint component_params (cs : list pz) : option (list (string * option xr)) :=
  match cs with
  | [] => Some []
  | PzFam _ d :: r => match params_dict d, component_params r with Some kw, Some l => Some (kw ++ l)%list | _, _ => None end
  | _ :: _ => None
  end.
(** distributions.py 549-567: Prior(class name, **params_dict). For a mixture the weights are those given; the parameters of the components are put
    in one dictionary. *)
Definition to_bambi (x : pz) : res pmcall :=
  match x with
  | PzMixture cs ws => match component_params cs with Some l => Ok (PmWeighted "Mixture" (dict l) ws) | None => Err TypeError end
  | _ => do kw <- kwargs_of x; Ok (PmPlain (pz_name x) kw)
  end.
End Convert.
