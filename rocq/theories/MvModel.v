(** Model of preliz/distributions/continuous_multivariate.py (parametrization of MvNormal and Dirichlet) and of the
    methods that preliz/distributions/distributions_multivariate.py derives from scipy's frozen object.

    Vectors are lists of reals. Matrices are an abstract type [M] with numpy's [inv], which raises LinAlgError (a
    ValueError) on a singular matrix. np.array(x, dtype=float) is the identity. *)
From Coq Require Import List Bool String Reals.
From Verif Require Import Base RLists XR LawModel OptModel.
Import ListNotations.
Open Scope R_scope.

(** scipy's multivariate_normal_frozen stores the mean as an attribute, where the other frozen objects have a method
    (distributions_multivariate.py 48-53 says so). *)
Inductive attribute (A : Type) : Type := Method (a : A) | Value (a : A).
Arguments Method {A}. Arguments Value {A}.
(** [obj.name()]: an array is not callable. *)
Definition call {A} (a : attribute A) : res A := match a with Method x => Ok x | Value _ => Err TypeError end.
(** [obj.name]. *)
Definition get {A} (a : attribute A) : A := match a with Method x => x | Value x => x end.

Inductive second := NameCov | NameTau.

Section Mv.
Context {M : Type}.
Variable inv : M -> res M.

(** The attributes of an MvNormal. [mv_tau] is None when the attribute was never set; [mv_rv] is rv_frozen, and
    is_frozen is set together with it (distributions_multivariate.py 35-40). *)
Record mvnormal := mkMv {
  mv_mu : option (list R);
  mv_cov : option M;
  mv_tau : option M;
  mv_names : second;
  mv_params : option (list R * M);
  mv_rv : option (list R * M) }.
(** distributions_multivariate.py 17-20. *)
Definition mv_blank : mvnormal := mkMv None None None NameCov None None.
Definition mv_is_frozen (o : mvnormal) : bool := match mv_rv o with Some _ => true | None => false end.

(** continuous_multivariate.py 569-580. all_not_none(self) is called with one argument that is not None, so the frozen
    object is always built (563-567). *)
Definition mv_update (o : mvnormal) (mu : list R) (cov : M) : mvnormal * res unit :=
  match inv cov with
  | Err e => (mkMv (Some mu) (Some cov) (mv_tau o) (mv_names o) (mv_params o) (mv_rv o), Err e)
  | Ok tau =>
      let params := match mv_names o with NameCov => (mu, cov) | NameTau => (mu, tau) end in
      (mkMv (Some mu) (Some cov) (Some tau) (mv_names o) (Some params) (Some (mu, cov)), Ok tt)
  end.
(** continuous_multivariate.py 545-561. *)
Definition mv_parametrization (o : mvnormal) (mu : option (list R)) (cov tau : option M) : mvnormal * res unit :=
  match cov, tau with
  | Some _, Some _ => (o, Err ValueError)
  | _, _ =>
      let finish o cov names :=
        let o1 := mkMv mu cov (mv_tau o) names (mv_params o) (mv_rv o) in
        match mu, cov with
        | Some m, Some c => mv_update o1 m c
        | _, _ => (o1, Ok tt)
        end in
      match tau with
      | None => finish o cov NameCov
      | Some t =>
          let o1 := mkMv (mv_mu o) (mv_cov o) (Some t) (mv_names o) (mv_params o) (mv_rv o) in
          match inv t with
          | Err e => (o1, Err e)
          | Ok c => finish o1 (Some c) NameTau
          end
      end
  end.
(** continuous_multivariate.py 538-543. *)
Definition mv_new (mu : option (list R)) (cov tau : option M) : mvnormal * res unit :=
  mv_parametrization mv_blank mu cov tau.

(** distributions_multivariate.py 59-61: rv_frozen is None before the first update. *)
Definition mv_mean (o : mvnormal) : res (list R) :=
  match mv_rv o with None => Err AttributeError | Some (m, _) => call (Value m) end.
(** distributions_multivariate.py 63-65. The method var of the object of scipy is replaced by a function (continuous_multivariate.py
    580) that reads cov of this object when it is called; np.diag(None) is a ValueError. *)
Definition mv_var (diag : M -> list R) (o : mvnormal) : res (list R) :=
  match mv_rv o with
  | None => Err AttributeError
  | Some _ => match mv_cov o with Some c => Ok (diag c) | None => Err ValueError end
  end.
(** distributions_multivariate.py 42-57. *)
Definition mv_summary (diag : M -> list R) (o : mvnormal) : res (list R * list R) :=
  match mv_rv o with None => Err ValueError | Some (m, _) => do v <- mv_var diag o; Ok (get (Value m), map sqrt v) end.
(** continuous_multivariate.py 585-586. *)
Definition mv_mode (o : mvnormal) : option (list R) := mv_mu o.
End Mv.
Arguments mvnormal : clear implicits.

(** Dirichlet: continuous_multivariate.py 60-84. *)
Record dirichlet := mkDir { dir_alpha : option (list R); dir_rv : option (list R) }.
Definition dir_blank : dirichlet := mkDir None None.
Definition dir_parametrization (o : dirichlet) (alpha : option (list R)) : dirichlet :=
  match alpha with
  | None => mkDir None (dir_rv o)
  | Some a => mkDir (Some a) (Some a)
  end.
(** continuous_multivariate.py 89-94; None > 1 raises TypeError. *)
Definition dir_mode (o : dirichlet) : res (option (list R)) :=
  match dir_alpha o with None => Err TypeError | Some a => Ok (dirichlet_mode_of a) end.
(** plot_helper_multivariate.py 125-136: the parameters of the Beta drawn for each component. *)
Definition dir_marginals (alpha : list R) : list (R * R) :=
  let a_0 := Rsum alpha in map (fun a_i => (a_i, a_0 - a_i)) alpha.

(** optimization.py 419-447 for a multivariate candidate of mle: the range of the sample is compared with the support
    (distributions_multivariate.py 83-121); _fit_mle raises NotImplementedError, a RuntimeError (continuous_multivariate.py 86-87 and
    582-583, distributions_multivariate.py 167-178). The loss otherwise. *)
Definition multi_fit_sample (supp : xr * xr) (x_min x_max : xr) : res xr :=
  if check_endpoints_silent supp x_min x_max then Err RuntimeError else Ok PInf.
(** maxent.py 127-144 and quartile.py 111-125 for a multivariate distribution: there is no _fit_moments. *)
Definition multi_elicit (frozen : bool) (supp : xr * xr) (lower upper : xr) : res unit :=
  if frozen then Err ValueError else do _ <- check_endpoints supp lower upper; Err AttributeError.
