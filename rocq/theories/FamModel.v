(** Model of the constructors of the univariate families: _parametrization and _update of
    preliz/distributions/*.py (all line numbers refer to the file named in the comment).

    Arguments are Python floats (or None). Attributes that are missing or None are both [None]. *)
From Coq Require Import List Bool String Reals.
From Verif Require Import Base XR SpecialModel.
Import ListNotations.
Open Scope R_scope.
Open Scope string_scope.

(** distributions.py 31-40 (Distribution) plus the attributes every family sets. [params] is empty until set. *)
Record dist := mkDist {
  names : list string;
  params : list (option xr);
  attr : string -> option xr;
  supp : xr * xr;
  frozen : bool }.

(** distributions.py 38-40. *)
Definition fresh (s : xr * xr) : dist :=
  {| names := []; params := []; attr := fun _ => None; supp := s; frozen := false |}.

Definition setA (d : dist) (k : string) (v : option xr) : dist :=
  {| names := names d; params := params d; attr := fun k' => if String.eqb k' k then v else attr d k';
     supp := supp d; frozen := frozen d |}.
Definition setN (d : dist) (ns : list string) : dist :=
  {| names := ns; params := params d; attr := attr d; supp := supp d; frozen := frozen d |}.
Definition setP (d : dist) (ps : list (option xr)) : dist :=
  {| names := names d; params := ps; attr := attr d; supp := supp d; frozen := frozen d |}.
Definition setS (d : dist) (s : xr * xr) : dist :=
  {| names := names d; params := params d; attr := attr d; supp := s; frozen := frozen d |}.
Definition freeze (d : dist) : dist :=
  {| names := names d; params := params d; attr := attr d; supp := supp d; frozen := true |}.
Fixpoint setAs (d : dist) (l : list (string * xr)) : dist :=
  match l with [] => d | (k, v) :: r => setAs (setA d k (Some v)) r end.
Fixpoint setOs (d : dist) (l : list (string * option xr)) : dist :=
  match l with [] => d | (k, v) :: r => setOs (setA d k v) r end.
Definition name_at (d : dist) (i : nat) (s : string) : bool :=
  match nth_error (names d) i with Some n => String.eqb n s | None => false end.

(** distribution_helper.py 24-35. *)
Definition given (x : option xr) : bool := match x with Some _ => true | None => false end.
Definition all_not_none (l : list (option xr)) : bool := forallb given l.
Definition any_not_none (l : list (option xr)) : bool := existsb given l.

(** distribution_helper.py 14-16 on a Python float. *)
Definition from_precision (p : xr) : res xr := do r <- pyhalf p; pydiv (Fin 1) r.
(** distribution_helper.py 19-21; eps is a numpy scalar, so the division is numpy's. *)
Definition to_precision (s : xr) : xr := xdiv (Fin 1) (xadd (Fin eps) (xpow s 2)).

(** Python's [a and b]: the first operand if it is falsy. *)
Definition pyand (a b : option xr) : option xr :=
  match a with
  | None => None
  | Some x => if xeqb x (Fin 0) then a else b
  end.

Definition args := string -> option xr.

(* ------------------------------------------------------------------------------------------ *)
(* Families with alternative parametrizations *)

(** asymmetric_laplace.py 251-258. *)
Definition al_from_q (q : xr) : res xr := do r <- pydiv q (xsub (Fin 1) q); pyhalf r.
Definition al_to_q (k : xr) : xr := xdiv (xpow k 2) (xadd (Fin 1) (xpow k 2)).
(** asymmetric_laplace.py 91-102. *)
Definition al_update (d : dist) (kappa mu b : xr) : dist :=
  let q := al_to_q kappa in
  let d := setAs d [("kappa", kappa); ("mu", mu); ("b", b); ("q", q)] in
  let d := if name_at d 0 "kappa" then setP d [Some kappa; Some mu; Some b]
           else if name_at d 0 "q" then setP d [Some q; Some mu; Some b] else d in
  freeze d.
(** asymmetric_laplace.py 67-89. *)
Definition al_param (kappa mu b q : option xr) : res dist :=
  let d := fresh (NInf, PInf) in
  if all_not_none [kappa; q] then Err ValueError else
  do (d, kappa) <- (match q with
     | Some qv => do k <- al_from_q qv; Ok (setN (setA d "q" q) ["q"; "mu"; "b"], Some k)
     | None => Ok (setN d ["kappa"; "mu"; "b"], kappa) end);
  let d := setOs d [("kappa", kappa); ("mu", mu); ("b", b)] in
  match kappa, mu, b with
  | Some k, Some m, Some bb => Ok (al_update d k m bb)
  | _, _, _ => Ok d end.

(** bernoulli.py 79-89. *)
Definition bernoulli_update (d : dist) (p : xr) : dist :=
  let lp := xlogit p in
  let d := setAs d [("p", p); ("_q", xsub (Fin 1) p); ("logit_p", lp)] in
  let d := if name_at d 0 "p" then setP d [Some p] else if name_at d 0 "logit_p" then setP d [Some lp] else d in
  freeze d.
(** bernoulli.py 52-74. [param_names = "p"] is a one-letter string, which behaves as ("p",). *)
Definition bernoulli_param (p logit_p : option xr) : res dist :=
  let d := fresh (Fin 0, Fin 1) in
  if all_not_none [p; logit_p] then Err ValueError else
  let '(d, p) := match logit_p with
     | Some l => (setN d ["logit_p"], Some (xexpit l))
     | None => (setN d ["p"], p) end in
  let d := setOs d [("p", p); ("logit_p", logit_p)] in
  match p with Some pv => Ok (bernoulli_update d pv) | None => Ok d end.

(** beta.py 110-119, on Python floats. *)
Definition beta_from_mu_nu (mu nu : xr) : xr * xr := (xmul mu nu, xmul (xsub (Fin 1) mu) nu).
Definition beta_from_mu_sigma (mu sigma : xr) : res (xr * xr) :=
  do q <- pydiv (xmul mu (xsub (Fin 1) mu)) (xpow sigma 2);
  Ok (beta_from_mu_nu mu (xsub q (Fin 1))).
(** beta.py 121-125, on numpy scalars. *)
Definition beta_to_mu_sigma (alpha beta : xr) : xr * xr :=
  let s := xadd alpha beta in
  (xdiv alpha s, xdiv (xdiv (xhalf (xmul alpha beta)) s) (xhalf (xadd s (Fin 1)))).
(** beta.py 127-140. *)
Definition beta_update (d : dist) (alpha beta : xr) : dist :=
  let '(mu, sigma) := beta_to_mu_sigma alpha beta in
  let nu := xsub (xdiv (xmul mu (xsub (Fin 1) mu)) (xpow sigma 2)) (Fin 1) in
  let d := setAs d [("alpha", alpha); ("beta", beta); ("mu", mu); ("sigma", sigma); ("nu", nu)] in
  let d := if name_at d 0 "alpha" then setP d [Some alpha; Some beta]
           else if name_at d 1 "sigma" then setP d [Some mu; Some sigma]
           else if name_at d 1 "nu" then setP d [Some mu; Some nu] else d in
  freeze d.
(** beta.py 75-108. *)
Definition beta_param (alpha beta mu sigma nu : option xr) : res dist :=
  let d := fresh (Fin 0, Fin 1) in
  if ((any_not_none [alpha; beta] && any_not_none [mu; sigma; nu]) || all_not_none [sigma; nu])%bool
  then Err ValueError else
  let d := setN d ["alpha"; "beta"] in
  do (d, alpha, beta) <- (if any_not_none [mu; sigma] then
      let d := setN (setOs d [("mu", mu); ("sigma", sigma)]) ["mu"; "sigma"] in
      match mu, sigma with
      | Some m, Some s => do (a, b) <- beta_from_mu_sigma m s; Ok (d, Some a, Some b)
      | _, _ => Ok (d, alpha, beta) end
    else Ok (d, alpha, beta));
  let '(d, alpha, beta) := (if (any_not_none [mu; nu] && negb (given sigma))%bool then
      let d := setN (setOs d [("mu", mu); ("nu", nu)]) ["mu"; "nu"] in
      match mu, nu with
      | Some m, Some n => let '(a, b) := beta_from_mu_nu m n in (d, Some a, Some b)
      | _, _ => (d, alpha, beta) end
    else (d, alpha, beta)) in
  let d := setOs d [("alpha", alpha); ("beta", beta)] in
  match alpha, beta with
  | Some a, Some b => Ok (beta_update d a b)
  | _, _ => Ok d end.

(** exponential.py 74-83. *)
Definition exponential_update (d : dist) (lam : xr) : dist :=
  let scale := xdiv (Fin 1) lam in
  let d := setAs d [("lam", lam); ("scale", scale)] in
  let d := if name_at d 0 "lam" then setP d [Some lam] else if name_at d 0 "scale" then setP d [Some scale] else d in
  freeze d.
(** exponential.py 53-72. *)
Definition exponential_param (lam scale : option xr) : res dist :=
  let d := fresh (Fin 0, PInf) in
  if all_not_none [lam; scale] then Err ValueError else
  do (d, lam) <- (match scale with
     | Some s => do l <- pydiv (Fin 1) s; Ok (setN d ["scale"], Some l)
     | None => Ok (setN d ["lam"], lam) end);
  let d := setOs d [("lam", lam); ("scale", scale)] in
  match lam with Some l => Ok (exponential_update d l) | None => Ok d end.

(** gamma.py 108-116. *)
Definition gamma_from_mu_sigma (mu sigma : xr) : res (xr * xr) :=
  do a <- pydiv (xpow mu 2) (xpow sigma 2); do b <- pydiv mu (xpow sigma 2); Ok (a, b).
Definition gamma_to_mu_sigma (alpha beta : xr) : xr * xr := (xdiv alpha beta, xdiv (xhalf alpha) beta).
(** gamma.py 96-106. *)
Definition gamma_update (d : dist) (alpha beta : xr) : dist :=
  let '(mu, sigma) := gamma_to_mu_sigma alpha beta in
  let d := setAs d [("alpha", alpha); ("beta", beta); ("mu", mu); ("sigma", sigma)] in
  let d := if name_at d 0 "alpha" then setP d [Some alpha; Some beta]
           else if name_at d 1 "sigma" then setP d [Some mu; Some sigma] else d in
  freeze d.
(** gamma.py 70-94. *)
Definition gamma_param (alpha beta mu sigma : option xr) : res dist :=
  let d := fresh (Fin 0, PInf) in
  if (any_not_none [alpha; beta] && any_not_none [mu; sigma])%bool then Err ValueError else
  let d := setN d ["alpha"; "beta"] in
  do (d, alpha, beta) <- (if any_not_none [mu; sigma] then
      let d := setN (setOs d [("mu", mu); ("sigma", sigma)]) ["mu"; "sigma"] in
      match mu, sigma with
      | Some m, Some s => do (a, b) <- gamma_from_mu_sigma m s; Ok (d, Some a, Some b)
      | _, _ => Ok (d, alpha, beta) end
    else Ok (d, alpha, beta));
  let d := setOs d [("alpha", alpha); ("beta", beta)] in
  match alpha, beta with
  | Some a, Some b => Ok (gamma_update d a b)
  | _, _ => Ok d end.

(** halfnormal.py 82-91. *)
Definition halfnormal_update (d : dist) (sigma : xr) : dist :=
  let tau := to_precision sigma in
  let d := setAs d [("sigma", sigma); ("tau", tau)] in
  let d := if name_at d 0 "sigma" then setP d [Some sigma] else if name_at d 0 "tau" then setP d [Some tau] else d in
  freeze d.
(** halfnormal.py 61-80. *)
Definition halfnormal_param (sigma tau : option xr) : res dist :=
  let d := fresh (Fin 0, PInf) in
  if all_not_none [sigma; tau] then Err ValueError else
  do (d, sigma) <- (match tau with
     | Some t => do s <- from_precision t; Ok (setN d ["tau"], Some s)
     | None => Ok (setN d ["sigma"], sigma) end);
  let d := setOs d [("sigma", sigma); ("tau", tau)] in
  match sigma with Some s => Ok (halfnormal_update d s) | None => Ok d end.

(** halfstudentt.py 101-111. *)
Definition halfstudentt_update (d : dist) (nu sigma : xr) : dist :=
  let lam := to_precision sigma in
  let d := setAs d [("nu", nu); ("sigma", sigma); ("lam", lam)] in
  let d := if name_at d 1 "sigma" then setP d [Some nu; Some sigma]
           else if name_at d 1 "lam" then setP d [Some nu; Some lam] else d in
  freeze d.
(** halfstudentt.py 77-99. *)
Definition halfstudentt_param (nu sigma lam : option xr) : res dist :=
  let d := fresh (Fin 0, PInf) in
  if all_not_none [sigma; lam] then Err ValueError else
  do (d, sigma) <- (match lam with
     | Some l => do s <- from_precision l; Ok (setN (setA d "lam" lam) ["nu"; "lam"], Some s)
     | None => Ok (setN d ["nu"; "sigma"], sigma) end);
  let d := setOs d [("nu", nu); ("sigma", sigma)] in
  match nu, sigma with Some n, Some s => Ok (halfstudentt_update d n s) | _, _ => Ok d end.

(** inversegamma.py 258-271. *)
Definition ig_to_mu (alpha beta : xr) : xr :=
  if xltb (Fin 1) alpha then xdiv beta (xsub alpha (Fin 1)) else NaN.
Definition ig_to_sigma (alpha beta : xr) : xr :=
  if xltb (Fin 2) alpha
  then xdiv beta (xmul (xsub alpha (Fin 1)) (xhalf (xsub alpha (Fin 2)))) else NaN.
(** inversegamma.py 252-255, on numpy scalars. *)
Definition ig_from_mu_sigma (mu sigma : xr) : xr * xr :=
  (xadd (xdiv (xpow mu 2) (xpow sigma 2)) (Fin 2), xadd (xdiv (xpow mu 3) (xpow sigma 2)) mu).
(** inversegamma.py 94-105. *)
Definition inversegamma_update (d : dist) (alpha beta : xr) : dist :=
  let mu := ig_to_mu alpha beta in
  let sigma := ig_to_sigma alpha beta in
  let d := setAs d [("alpha", alpha); ("beta", beta); ("mu", mu); ("sigma", sigma)] in
  let d := if name_at d 0 "alpha" then setP d [Some alpha; Some beta]
           else if name_at d 1 "sigma" then setP d [Some mu; Some sigma] else d in
  freeze d.
(** inversegamma.py 68-92. [ptd] is the external ptd_inversegamma.from_mu_sigma. *)
Definition inversegamma_param (ptd : xr -> xr -> xr * xr) (alpha beta mu sigma : option xr) : res dist :=
  let d := fresh (Fin 0, PInf) in
  if (any_not_none [alpha; beta] && any_not_none [mu; sigma])%bool then Err ValueError else
  let d := setN d ["alpha"; "beta"] in
  let '(d, alpha, beta) := (if any_not_none [mu; sigma] then
      let d := setN (setOs d [("mu", mu); ("sigma", sigma)]) ["mu"; "sigma"] in
      match mu, sigma with
      | Some m, Some s => let '(a, b) := ptd m s in (d, Some a, Some b)
      | _, _ => (d, alpha, beta) end
    else (d, alpha, beta)) in
  let d := setOs d [("alpha", alpha); ("beta", beta)] in
  match alpha, beta with
  | Some a, Some b => Ok (inversegamma_update d a b)
  | _, _ => Ok d end.

(** logitnormal.py 85-95. *)
Definition logitnormal_update (d : dist) (mu sigma : xr) : dist :=
  let tau := to_precision sigma in
  let d := setAs d [("mu", mu); ("sigma", sigma); ("tau", tau)] in
  let d := if name_at d 1 "sigma" then setP d [Some mu; Some sigma]
           else if name_at d 1 "tau" then setP d [Some mu; Some tau] else d in
  freeze d.
(** logitnormal.py 60-83. *)
Definition logitnormal_param (mu sigma tau : option xr) : res dist :=
  let d := fresh (Fin 0, Fin 1) in
  if all_not_none [sigma; tau] then Err ValueError else
  do (d, sigma, ns) <- (match tau with
     | Some t => do s <- from_precision t; Ok (setA d "tau" tau, Some s, ["mu"; "tau"])
     | None => Ok (d, sigma, ["mu"; "sigma"]) end);
  let d := setN (setOs d [("mu", mu); ("sigma", sigma)]) ns in
  match mu, sigma with Some m, Some s => Ok (logitnormal_update d m s) | _, _ => Ok d end.

(** negativebinomial.py 101-107. *)
Definition nb_from_n_p (n p : xr) : res (xr * xr) :=
  do ip <- pydiv (Fin 1) p; Ok (xmul n (xsub ip (Fin 1)), n).
Definition nb_to_p (mu alpha : xr) : xr := xdiv alpha (xadd mu alpha).
(** negativebinomial.py 109-119. *)
Definition nb_update (d : dist) (mu alpha : xr) : dist :=
  let p := nb_to_p mu alpha in
  let d := setAs d [("mu", mu); ("alpha", alpha); ("n", alpha); ("p", p)] in
  let d := if name_at d 0 "mu" then setP d [Some mu; Some alpha]
           else if name_at d 0 "p" then setP d [Some p; Some alpha] else d in
  freeze d.
(** negativebinomial.py 77-99. *)
Definition nb_param (mu alpha p n : option xr) : res dist :=
  let d := fresh (Fin 0, PInf) in
  if (any_not_none [mu; alpha] && any_not_none [p; n])%bool then Err ValueError else
  let d := setN d ["mu"; "alpha"] in
  do (d, mu, alpha) <- (if any_not_none [p; n] then
      let d := setN (setOs d [("p", p); ("n", n)]) ["p"; "n"] in
      match p, n with
      | Some pv, Some nv => do (m, a) <- nb_from_n_p nv pv; Ok (d, Some m, Some a)
      | _, _ => Ok (d, mu, alpha) end
    else Ok (d, mu, alpha));
  let d := setOs d [("mu", mu); ("alpha", alpha)] in
  match mu, alpha with
  | Some m, Some a => Ok (nb_update d m a)
  | _, _ => Ok d end.

(** normal.py 91-101. *)
Definition normal_update (d : dist) (mu sigma : xr) : dist :=
  let tau := to_precision sigma in
  let d := setAs d [("mu", mu); ("sigma", sigma); ("tau", tau)] in
  let d := if name_at d 1 "sigma" then setP d [Some mu; Some sigma]
           else if name_at d 1 "tau" then setP d [Some mu; Some tau] else d in
  freeze d.
(** normal.py 66-89. *)
Definition normal_param (mu sigma tau : option xr) : res dist :=
  let d := fresh (NInf, PInf) in
  if all_not_none [sigma; tau] then Err ValueError else
  do (d, sigma, ns) <- (match tau with
     | Some t => do s <- from_precision t; Ok (setA d "tau" tau, Some s, ["mu"; "tau"])
     | None => Ok (d, sigma, ["mu"; "sigma"]) end);
  let d := setN (setOs d [("mu", mu); ("sigma", sigma)]) ns in
  match mu, sigma with Some m, Some s => Ok (normal_update d m s) | _, _ => Ok d end.

(** rice.py 94-104. *)
Definition rice_update (d : dist) (nu sigma : xr) : dist :=
  let b := xdiv nu sigma in
  let d := setAs d [("nu", nu); ("sigma", sigma); ("b", b)] in
  let d := if name_at d 0 "nu" then setP d [Some nu; Some sigma]
           else if name_at d 0 "b" then setP d [Some b; Some sigma] else d in
  freeze d.
(** rice.py 59-92. *)
Definition rice_param (nu sigma b : option xr) : res dist :=
  let d := fresh (Fin 0, PInf) in
  if all_not_none [nu; b] then Err ValueError else
  let d := setN d ["nu"; "sigma"] in
  let '(d, nu) := (match b with
     | Some bv =>
        let d := setN (setOs d [("b", b); ("sigma", sigma)]) ["b"; "sigma"] in
        match sigma with Some s => (d, Some (xmul bv s)) | None => (d, nu) end
     | None => (d, nu) end) in
  let d := setOs d [("nu", nu); ("sigma", sigma)] in
  match nu, sigma with Some n, Some s => Ok (rice_update d n s) | _, _ => Ok d end.

(** skew_studentt.py 95-105. *)
Definition skewstudentt_update (d : dist) (mu sigma a b : xr) : dist :=
  let lam := to_precision sigma in
  let d := setAs d [("mu", mu); ("sigma", sigma); ("lam", lam); ("a", a); ("b", b)] in
  let d := if name_at d 1 "sigma" then setP d [Some mu; Some sigma; Some a; Some b]
           else if name_at d 1 "lam" then setP d [Some mu; Some lam; Some a; Some b] else d in
  freeze d.
(** skew_studentt.py 74-93. *)
Definition skewstudentt_param (mu sigma a b lam : option xr) : res dist :=
  if all_not_none [sigma; lam] then Err ValueError else
  let d := setN (setOs (fresh (NInf, PInf)) [("mu", mu); ("sigma", sigma); ("a", a); ("b", b)])
                ["mu"; "sigma"; "a"; "b"] in
  do (d, sigma) <- (match lam with
     | Some l => do s <- from_precision l; Ok (setN (setA d "lam" lam) ["mu"; "lam"; "a"; "b"], Some s)
     | None => Ok (d, sigma) end);
  match mu, sigma, a, b with
  | Some m, Some s, Some av, Some bv => Ok (skewstudentt_update d m s av bv)
  | _, _, _, _ => Ok d end.

(** skewnormal.py 96-107. *)
Definition skewnormal_update (d : dist) (mu sigma alpha : xr) : dist :=
  let tau := to_precision sigma in
  let d := setAs d [("mu", mu); ("sigma", sigma); ("alpha", alpha); ("tau", tau)] in
  let d := if name_at d 1 "sigma" then setP d [Some mu; Some sigma; Some alpha]
           else if name_at d 1 "tau" then setP d [Some mu; Some tau; Some alpha] else d in
  freeze d.
(** skewnormal.py 70-94. *)
Definition skewnormal_param (mu sigma alpha tau : option xr) : res dist :=
  let d := fresh (NInf, PInf) in
  if all_not_none [sigma; tau] then Err ValueError else
  do (d, sigma) <- (match tau with
     | Some t => do s <- from_precision t; Ok (setN (setA d "tau" tau) ["mu"; "tau"; "alpha"], Some s)
     | None => Ok (setN d ["mu"; "sigma"; "alpha"], sigma) end);
  let d := setOs d [("mu", mu); ("sigma", sigma); ("alpha", alpha)] in
  match mu, sigma, alpha with
  | Some m, Some s, Some av => Ok (skewnormal_update d m s av)
  | _, _, _ => Ok d end.

(** studentt.py 99-110. *)
Definition studentt_update (d : dist) (nu mu sigma : xr) : dist :=
  let lam := to_precision sigma in
  let d := setAs d [("nu", nu); ("mu", mu); ("sigma", sigma); ("lam", lam)] in
  let d := if name_at d 2 "sigma" then setP d [Some nu; Some mu; Some sigma]
           else if name_at d 2 "lam" then setP d [Some nu; Some mu; Some lam] else d in
  freeze d.
(** studentt.py 72-97. *)
Definition studentt_param (nu mu sigma lam : option xr) : res dist :=
  let d := fresh (NInf, PInf) in
  if all_not_none [sigma; lam] then Err ValueError else
  do (d, sigma) <- (match lam with
     | Some l => do s <- from_precision l; Ok (setN (setA d "lam" lam) ["nu"; "mu"; "lam"], Some s)
     | None => Ok (setN d ["nu"; "mu"; "sigma"], sigma) end);
  let d := setOs d [("nu", nu); ("mu", mu); ("sigma", sigma)] in
  match nu, mu, sigma with
  | Some n, Some m, Some s => Ok (studentt_update d n m s)
  | _, _, _ => Ok d end.

(** wald.py 102-114. *)
Definition wald_update (d : dist) (mu lam : xr) : dist :=
  let phi := xdiv lam mu in
  let d := setAs d [("mu", mu); ("lam", lam); ("phi", phi)] in
  let d := if (name_at d 0 "mu" && name_at d 1 "lam")%bool then setP d [Some mu; Some lam]
           else if (name_at d 0 "mu" && name_at d 1 "phi")%bool then setP d [Some mu; Some phi]
           else if (name_at d 0 "lam" && name_at d 1 "phi")%bool then setP d [Some lam; Some phi] else d in
  freeze d.
(** wald.py 61-100. *)
Definition wald_param (mu lam phi : option xr) : res dist :=
  let d := fresh (Fin 0, PInf) in
  if all_not_none [mu; lam; phi] then Err ValueError else
  let d := setN d ["mu"; "lam"] in
  do (d, mu, lam) <- (match phi with
     | Some ph =>
        let d := setA d "phi" phi in
        match pyand mu phi, mu with
        | Some _, Some m => Ok (setN d ["mu"; "phi"], mu, Some (xmul m ph))
        | _, _ => match pyand lam phi, lam with
                  | Some _, Some l => do m <- pydiv l ph; Ok (setN d ["lam"; "phi"], Some m, lam)
                  | _, _ => Ok (d, mu, lam) end
        end
     | None => Ok (d, mu, lam) end);
  let d := setOs d [("mu", mu); ("lam", lam)] in
  match mu, lam with Some m, Some l => Ok (wald_update d m l) | _, _ => Ok d end.

(** zi_negativebinomial.py 107-115. *)
Definition zinb_from_p_n (p n : xr) : res (xr * xr) :=
  do ip <- pydiv (Fin 1) p; Ok (xmul n (xsub ip (Fin 1)), n).
(** zi_negativebinomial.py 117-128; psi may be None. *)
Definition zinb_update (d : dist) (psi : option xr) (mu alpha : xr) : dist :=
  let ps := np_float64 psi in
  let p := xdiv alpha (xadd mu alpha) in
  let d := setAs d [("psi", ps); ("mu", mu); ("alpha", alpha); ("p", p); ("n", alpha)] in
  let d := if name_at d 1 "mu" then setP d [Some ps; Some mu; Some alpha]
           else if name_at d 1 "p" then setP d [Some ps; Some p; Some alpha] else d in
  freeze d.
(** zi_negativebinomial.py 79-105. *)
Definition zinb_param (psi mu alpha p n : option xr) : res dist :=
  let d := fresh (Fin 0, PInf) in
  if (any_not_none [mu; alpha] && any_not_none [p; n])%bool then Err ValueError else
  let d := setN (setA d "psi" psi) ["psi"; "mu"; "alpha"] in
  do (d, mu, alpha) <- (if any_not_none [p; n] then
      let d := setN (setOs d [("p", p); ("n", n)]) ["psi"; "p"; "n"] in
      match p, n with
      | Some pv, Some nv => do (m, a) <- zinb_from_p_n pv nv; Ok (d, Some m, Some a)
      | _, _ => Ok (d, mu, alpha) end
    else Ok (d, mu, alpha));
  let d := setP (setOs d [("mu", mu); ("alpha", alpha)]) [psi; mu; alpha] in
  match mu, alpha with
  | Some m, Some a => Ok (zinb_update d psi m a)
  | _, _ => Ok d end.

(* ------------------------------------------------------------------------------------------ *)
(* Families with a single parametrization. Most share the same code shape. *)

(** [self.params = (...)], [self.param_names = (...)], attributes; then [_update] if everything is given.
    E.g. cauchy.py 50-63; the rows of [plain_family] cite the others. *)
Definition start (s : xr * xr) (l : list (string * option xr)) : dist :=
  setP (setN (setOs (fresh s) l) (map fst l)) (map snd l).
Definition plain_update (d : dist) (ns : list string) (vs : list xr) : dist :=
  freeze (setP (setAs d (combine ns vs)) (map Some vs)).

Definition plain1 (s : xr * xr) (n : string) (a : args) : res dist :=
  let d := start s [(n, a n)] in
  match a n with Some x => Ok (plain_update d [n] [x]) | None => Ok d end.
Definition plain2 (s : xr * xr) (n m : string) (a : args) : res dist :=
  let d := start s [(n, a n); (m, a m)] in
  match a n, a m with Some x, Some y => Ok (plain_update d [n; m] [x; y]) | _, _ => Ok d end.
Definition plain3 (s : xr * xr) (n m k : string) (a : args) : res dist :=
  let d := start s [(n, a n); (m, a m); (k, a k)] in
  match a n, a m, a k with
  | Some x, Some y, Some z => Ok (plain_update d [n; m; k] [x; y; z]) | _, _, _ => Ok d end.

(** betabinomial.py 69-75. *)
Definition betabinomial_update (d : dist) (alpha beta n : xr) : res dist :=
  do n' <- np_int64 (Some n);
  Ok (setS (plain_update d ["alpha"; "beta"; "n"] [alpha; beta; n']) (Fin 0, n')).
(** betabinomial.py 54-67. *)
Definition betabinomial_param (alpha beta n : option xr) : res dist :=
  let d := start (Fin 0, PInf) [("alpha", alpha); ("beta", beta); ("n", n)] in
  match alpha, beta, n with
  | Some x, Some y, Some z => betabinomial_update d x y z | _, _, _ => Ok d end.

(** binomial.py 62-68. *)
Definition binomial_update (d : dist) (n p : xr) : res dist :=
  do n' <- np_int64 (Some n);
  Ok (setS (setA (plain_update d ["n"; "p"] [n'; p]) "_q" (Some (xsub (Fin 1) p))) (Fin 0, n')).
(** binomial.py 48-60. *)
Definition binomial_param (n p : option xr) : res dist :=
  let d := start (Fin 0, PInf) [("n", n); ("p", p)] in
  match n, p with Some x, Some y => binomial_update d x y | _, _ => Ok d end.

(** zi_binomial.py 64-73. *)
Definition zib_update (d : dist) (psi n p : xr) : res dist :=
  do n' <- np_int64 (Some n);
  Ok (setS (plain_update d ["psi"; "n"; "p"] [psi; n'; p])
           (if xeqb psi (Fin 0) then (Fin 0, Fin 0) else (Fin 0, n'))).
(** zi_binomial.py 49-62. *)
Definition zib_param (psi n p : option xr) : res dist :=
  let d := start (Fin 0, PInf) [("psi", psi); ("n", n); ("p", p)] in
  match psi, n, p with Some x, Some y, Some z => zib_update d x y z | _, _, _ => Ok d end.

(** hypergeometric.py 63-69; the support uses the arguments as given, not their integer parts. *)
Definition hypergeometric_update (d : dist) (N k n : xr) : res dist :=
  do N' <- np_int64 (Some N); do k' <- np_int64 (Some k); do n' <- np_int64 (Some n);
  Ok (setS (plain_update d ["N"; "k"; "n"] [N'; k'; n'])
           (pymax (Fin 0) (xadd (xsub n N) k), pymin k n)).
(** hypergeometric.py 49-61. *)
Definition hypergeometric_param (N k n : option xr) : res dist :=
  let d := start (Fin 0, PInf) [("N", N); ("k", k); ("n", n)] in
  match N, k, n with Some x, Some y, Some z => hypergeometric_update d x y z | _, _, _ => Ok d end.

(** pareto.py 58-63. *)
Definition pareto_update (d : dist) (alpha m : xr) : dist :=
  setS (plain_update d ["alpha"; "m"] [alpha; m]) (m, PInf).
(** pareto.py 44-56. *)
Definition pareto_param (alpha m : option xr) : res dist :=
  let d := start (Fin 0, PInf) [("alpha", alpha); ("m", m)] in
  match alpha, m with Some x, Some y => Ok (pareto_update d x y) | _, _ => Ok d end.

(** triangular.py 68-74. *)
Definition triangular_update (d : dist) (lower c upper : xr) : dist :=
  setS (plain_update d ["lower"; "c"; "upper"] [lower; c; upper]) (lower, upper).
(** triangular.py 53-66. *)
Definition triangular_param (lower c upper : option xr) : res dist :=
  let d := start (NInf, PInf) [("lower", lower); ("c", c); ("upper", upper)] in
  match lower, c, upper with Some x, Some y, Some z => Ok (triangular_update d x y z) | _, _, _ => Ok d end.

Definition default (v : option xr) (x : xr) : xr := match v with Some y => y | None => x end.

(** uniform.py 63-69. *)
Definition uniform_update (d : dist) (lower upper : xr) : dist :=
  setS (plain_update d ["lower"; "upper"] [lower; upper]) (lower, upper).
(** uniform.py 42-61. *)
Definition uniform_param (lower upper : option xr) : res dist :=
  let d := start (default lower NInf, default upper PInf) [("lower", lower); ("upper", upper)] in
  match lower, upper with Some x, Some y => Ok (uniform_update d x y) | _, _ => Ok d end.

(** discrete_uniform.py 63-70. *)
Definition discreteuniform_update (d : dist) (lower upper : xr) : dist :=
  let lo := xfloor lower in
  let up := xceil upper in
  setS (setA (plain_update d ["lower"; "upper"] [lo; up]) "_n" (Some (xadd (xsub up lo) (Fin 1)))) (lo, up).
(** discrete_uniform.py 42-61. *)
Definition discreteuniform_param (lower upper : option xr) : res dist :=
  let d := start (default lower NInf, default upper PInf) [("lower", lower); ("upper", upper)] in
  match lower, upper with Some x, Some y => Ok (discreteuniform_update d x y) | _, _ => Ok d end.

(** truncatednormal.py 78-88. mu and sigma may be None (then nan), as in _fit_mle 146-148. *)
Definition truncatednormal_update (d : dist) (mu sigma lower upper : option xr) : dist :=
  let d := match lower with Some _ => setA d "lower" lower | None => d end in
  let d := match upper with Some _ => setA d "upper" upper | None => d end in
  let d := setAs d [("mu", np_float64 mu); ("sigma", np_float64 sigma)] in
  let lo := attr d "lower" in let up := attr d "upper" in
  freeze (setS (setP d [Some (np_float64 mu); Some (np_float64 sigma); lo; up])
               (np_float64 lo, np_float64 up)).
(** truncatednormal.py 53-76. *)
Definition truncatednormal_param (mu sigma lower upper : option xr) : res dist :=
  let s := (default lower NInf, default upper PInf) in
  let d := start s [("mu", mu); ("sigma", sigma); ("lower", lower); ("upper", upper)] in
  let d := setAs d [("lower", fst s); ("upper", snd s)] in
  if all_not_none [mu; sigma; lower; upper] then Ok (truncatednormal_update d mu sigma lower upper) else Ok d.

(** betascaled.py 70-80. alpha and beta may be None (then nan), as in _fit_mle 107-109. *)
Definition betascaled_update (d : dist) (alpha beta lower upper : option xr) : dist :=
  let d := match lower with Some _ => setA d "lower" lower | None => d end in
  let d := match upper with Some _ => setA d "upper" upper | None => d end in
  let d := setAs d [("alpha", np_float64 alpha); ("beta", np_float64 beta)] in
  let lo := attr d "lower" in let up := attr d "upper" in
  freeze (setS (setP d [Some (np_float64 alpha); Some (np_float64 beta); lo; up])
               (np_float64 lo, np_float64 up)).
(** betascaled.py 55-68. An omitted lower or upper takes the default of the signature (0, 1). Simplification:
    an explicit None for lower or upper is treated as omitted. *)
Definition betascaled_param (alpha beta lower upper : option xr) : res dist :=
  let lo := default lower (Fin 0) in
  let up := default upper (Fin 1) in
  let d := fresh (lo, up) in
  let d := setN (setOs d [("alpha", alpha); ("beta", beta); ("lower", Some lo); ("upper", Some up)])
                ["alpha"; "beta"; "lower"; "upper"] in
  match alpha, beta with
  | Some _, Some _ => Ok (betascaled_update d alpha beta (Some lo) (Some up)) | _, _ => Ok d end.

(** kumaraswamy.py 59-63: np.float64(None) is nan. *)
Definition kumaraswamy_update (d : dist) (a b : option xr) : dist :=
  plain_update d ["a"; "b"] [np_float64 a; np_float64 b].
(** kumaraswamy.py 45-57: the test is [(a and b) is not None]. *)
Definition kumaraswamy_param (a b : option xr) : res dist :=
  let d := start (Fin 0, Fin 1) [("a", a); ("b", b)] in
  match pyand a b with Some _ => Ok (kumaraswamy_update d a b) | None => Ok d end.

(* ------------------------------------------------------------------------------------------ *)
Inductive family :=
| AsymmetricLaplace | Bernoulli | Beta | Exponential | Gamma | HalfNormal | HalfStudentT | InverseGamma
| LogitNormal | NegativeBinomial | Normal | Rice | SkewStudentT | SkewNormal | StudentT | Wald
| ZeroInflatedNegativeBinomial
| BetaBinomial | BetaScaled | Binomial | Cauchy | ChiSquared | DiscreteUniform | DiscreteWeibull | ExGaussian
| Geometric | Gumbel | HalfCauchy | HyperGeometric | Kumaraswamy | Laplace | Logistic | LogLogistic | LogNormal
| Moyal | Pareto | Poisson | Triangular | TruncatedNormal | Uniform | VonMises | Weibull
| ZeroInflatedBinomial | ZeroInflatedPoisson.

(** The [__init__] signatures, in order. *)
Definition signature (f : family) : list string :=
  match f with
  | AsymmetricLaplace => ["kappa"; "mu"; "b"; "q"]
  | Bernoulli => ["p"; "logit_p"]
  | Beta => ["alpha"; "beta"; "mu"; "sigma"; "nu"]
  | Exponential => ["lam"; "scale"]
  | Gamma | InverseGamma => ["alpha"; "beta"; "mu"; "sigma"]
  | HalfNormal => ["sigma"; "tau"]
  | HalfStudentT => ["nu"; "sigma"; "lam"]
  | LogitNormal | Normal => ["mu"; "sigma"; "tau"]
  | NegativeBinomial => ["mu"; "alpha"; "p"; "n"]
  | Rice => ["nu"; "sigma"; "b"]
  | SkewStudentT => ["mu"; "sigma"; "a"; "b"; "lam"]
  | SkewNormal => ["mu"; "sigma"; "alpha"; "tau"]
  | StudentT => ["nu"; "mu"; "sigma"; "lam"]
  | Wald => ["mu"; "lam"; "phi"]
  | ZeroInflatedNegativeBinomial => ["psi"; "mu"; "alpha"; "p"; "n"]
  | BetaBinomial => ["alpha"; "beta"; "n"]
  | BetaScaled => ["alpha"; "beta"; "lower"; "upper"]
  | Binomial => ["n"; "p"]
  | Cauchy | LogLogistic | Weibull => ["alpha"; "beta"]
  | ChiSquared => ["nu"]
  | DiscreteUniform | Uniform => ["lower"; "upper"]
  | DiscreteWeibull => ["q"; "beta"]
  | ExGaussian => ["mu"; "sigma"; "nu"]
  | Geometric => ["p"]
  | Gumbel => ["mu"; "beta"]
  | HalfCauchy => ["beta"]
  | HyperGeometric => ["N"; "k"; "n"]
  | Kumaraswamy => ["a"; "b"]
  | Laplace => ["mu"; "b"]
  | Logistic => ["mu"; "s"]
  | LogNormal | Moyal => ["mu"; "sigma"]
  | Pareto => ["alpha"; "m"]
  | Poisson => ["mu"]
  | Triangular => ["lower"; "c"; "upper"]
  | TruncatedNormal => ["mu"; "sigma"; "lower"; "upper"]
  | VonMises => ["mu"; "kappa"]
  | ZeroInflatedBinomial => ["psi"; "n"; "p"]
  | ZeroInflatedPoisson => ["psi"; "mu"]
  end.

Section Construct.
Variable ptd_ig : xr -> xr -> xr * xr.
(** [Family( **kwargs )]. The rows without a definition of their own:
    cauchy.py 45-63, chi_squared.py 43-60, discrete_weibull.py 49-67, exgaussian.py 57-78, geometric.py 40-55,
    gumbel.py 50-68, halfcauchy.py 41-57, laplace.py 45-63, logistic.py 45-63, loglogistic.py 49-67,
    lognormal.py 53-71, moyal.py 52-70, poisson.py 45-61, vonmises.py 48-65 (pi for the support is [PI]),
    weibull.py 50-68, zi_poisson.py 49-67. *)
Definition construct (f : family) (a : args) : res dist :=
  match f with
  | AsymmetricLaplace => al_param (a "kappa") (a "mu") (a "b") (a "q")
  | Bernoulli => bernoulli_param (a "p") (a "logit_p")
  | Beta => beta_param (a "alpha") (a "beta") (a "mu") (a "sigma") (a "nu")
  | Exponential => exponential_param (a "lam") (a "scale")
  | Gamma => gamma_param (a "alpha") (a "beta") (a "mu") (a "sigma")
  | HalfNormal => halfnormal_param (a "sigma") (a "tau")
  | HalfStudentT => halfstudentt_param (a "nu") (a "sigma") (a "lam")
  | InverseGamma => inversegamma_param ptd_ig (a "alpha") (a "beta") (a "mu") (a "sigma")
  | LogitNormal => logitnormal_param (a "mu") (a "sigma") (a "tau")
  | NegativeBinomial => nb_param (a "mu") (a "alpha") (a "p") (a "n")
  | Normal => normal_param (a "mu") (a "sigma") (a "tau")
  | Rice => rice_param (a "nu") (a "sigma") (a "b")
  | SkewStudentT => skewstudentt_param (a "mu") (a "sigma") (a "a") (a "b") (a "lam")
  | SkewNormal => skewnormal_param (a "mu") (a "sigma") (a "alpha") (a "tau")
  | StudentT => studentt_param (a "nu") (a "mu") (a "sigma") (a "lam")
  | Wald => wald_param (a "mu") (a "lam") (a "phi")
  | ZeroInflatedNegativeBinomial => zinb_param (a "psi") (a "mu") (a "alpha") (a "p") (a "n")
  | BetaBinomial => betabinomial_param (a "alpha") (a "beta") (a "n")
  | BetaScaled => betascaled_param (a "alpha") (a "beta") (a "lower") (a "upper")
  | Binomial => binomial_param (a "n") (a "p")
  | Cauchy => plain2 (NInf, PInf) "alpha" "beta" a
  | ChiSquared => plain1 (Fin 0, PInf) "nu" a
  | DiscreteUniform => discreteuniform_param (a "lower") (a "upper")
  | DiscreteWeibull => plain2 (Fin 0, PInf) "q" "beta" a
  | ExGaussian => plain3 (NInf, PInf) "mu" "sigma" "nu" a
  | Geometric => plain1 (Fin 1, PInf) "p" a
  | Gumbel => plain2 (NInf, PInf) "mu" "beta" a
  | HalfCauchy => plain1 (Fin 0, PInf) "beta" a
  | HyperGeometric => hypergeometric_param (a "N") (a "k") (a "n")
  | Kumaraswamy => kumaraswamy_param (a "a") (a "b")
  | Laplace => plain2 (NInf, PInf) "mu" "b" a
  | Logistic => plain2 (NInf, PInf) "mu" "s" a
  | LogLogistic => plain2 (Fin 0, PInf) "alpha" "beta" a
  | LogNormal => plain2 (Fin 0, PInf) "mu" "sigma" a
  | Moyal => plain2 (NInf, PInf) "mu" "sigma" a
  | Pareto => pareto_param (a "alpha") (a "m")
  | Poisson => plain1 (Fin 0, PInf) "mu" a
  | Triangular => triangular_param (a "lower") (a "c") (a "upper")
  | TruncatedNormal => truncatednormal_param (a "mu") (a "sigma") (a "lower") (a "upper")
  | Uniform => uniform_param (a "lower") (a "upper")
  | VonMises => plain2 (Fin (- PI), Fin PI) "mu" "kappa" a
  | Weibull => plain2 (Fin 0, PInf) "alpha" "beta" a
  | ZeroInflatedBinomial => zib_param (a "psi") (a "n") (a "p")
  | ZeroInflatedPoisson => plain2 (Fin 0, PInf) "psi" "mu" a
  end.
End Construct.

(** [dist._update( *values )] with positional values; a wrong number of arguments is a TypeError. *)
Definition update (f : family) (d : dist) (v : list (option xr)) : res dist :=
  match f, v with
  | AsymmetricLaplace, [Some x; Some y; Some z] => Ok (al_update d x y z)
  | Bernoulli, [Some x] => Ok (bernoulli_update d x)
  | Beta, [Some x; Some y] => Ok (beta_update d x y)
  | Exponential, [Some x] => Ok (exponential_update d x)
  | Gamma, [Some x; Some y] => Ok (gamma_update d x y)
  | HalfNormal, [Some x] => Ok (halfnormal_update d x)
  | HalfStudentT, [Some x; Some y] => Ok (halfstudentt_update d x y)
  | InverseGamma, [Some x; Some y] => Ok (inversegamma_update d x y)
  | LogitNormal, [Some x; Some y] => Ok (logitnormal_update d x y)
  | NegativeBinomial, [Some x; Some y] => Ok (nb_update d x y)
  | Normal, [Some x; Some y] => Ok (normal_update d x y)
  | Rice, [Some x; Some y] => Ok (rice_update d x y)
  | SkewStudentT, [Some x; Some y; Some z; Some w] => Ok (skewstudentt_update d x y z w)
  | SkewNormal, [Some x; Some y; Some z] => Ok (skewnormal_update d x y z)
  | StudentT, [Some x; Some y; Some z] => Ok (studentt_update d x y z)
  | Wald, [Some x; Some y] => Ok (wald_update d x y)
  | ZeroInflatedNegativeBinomial, [p; Some y; Some z] => Ok (zinb_update d p y z)
  | BetaBinomial, [Some x; Some y; Some z] => betabinomial_update d x y z
  | BetaScaled, [x; y] => Ok (betascaled_update d x y None None)
  | BetaScaled, [x; y; z; w] => Ok (betascaled_update d x y z w)
  | Binomial, [Some x; Some y] => binomial_update d x y
  | DiscreteUniform, [Some x; Some y] => Ok (discreteuniform_update d x y)
  | HyperGeometric, [Some x; Some y; Some z] => hypergeometric_update d x y z
  | Kumaraswamy, [x; y] => Ok (kumaraswamy_update d x y)
  | Pareto, [Some x; Some y] => Ok (pareto_update d x y)
  | Triangular, [Some x; Some y; Some z] => Ok (triangular_update d x y z)
  | TruncatedNormal, [x; y] => Ok (truncatednormal_update d x y None None)
  | TruncatedNormal, [x; y; z; w] => Ok (truncatednormal_update d x y z w)
  | Uniform, [Some x; Some y] => Ok (uniform_update d x y)
  | ZeroInflatedBinomial, [Some x; Some y; Some z] => zib_update d x y z
  | (ChiSquared | Geometric | HalfCauchy | Poisson), [Some x] => Ok (plain_update d (signature f) [x])
  | (Cauchy | DiscreteWeibull | Gumbel | Laplace | Logistic | LogLogistic | LogNormal | Moyal | VonMises
    | Weibull | ZeroInflatedPoisson), [Some x; Some y] => Ok (plain_update d (signature f) [x; y])
  | ExGaussian, [Some x; Some y; Some z] => Ok (plain_update d (signature f) [x; y; z])
  | _, _ => Err TypeError
  end.
