From Coq Require Import List Bool String Reals Lra Lia.
From Verif Require Import Base XR SpecialModel FamModel FamSpec.
Import ListNotations.
Open Scope R_scope.
Open Scope string_scope.

Lemma in_existsb k P : existsb (String.eqb k) P = true <-> In k P.
Proof.
  rewrite existsb_exists. split.
  - intros [x [H1 H2]]. apply String.eqb_eq in H2. subst; auto.
  - intro H. exists k. split; auto. apply String.eqb_refl.
Qed.

Definition compatb (f : family) (a : args) : bool :=
  existsb (fun P => forallb (fun k => implb (given (a k)) (existsb (String.eqb k) P)) (signature f)) (sets f).

Lemma given_spec a k : given (a k) = true <-> is_given a k.
Proof. unfold given, is_given. destruct (a k); split; congruence. Qed.

Lemma compatb_spec f a : compatb f a = true <-> compatible f a.
Proof.
  unfold compatb, compatible. rewrite existsb_exists. split.
  - intros [P [HP H]]. exists P. split; auto. intros k Hk Hg. rewrite forallb_forall in H. specialize (H k Hk).
    apply given_spec in Hg. rewrite Hg in H. simpl in H. apply in_existsb. exact H.
  - intros [P [HP H]]. exists P. split; auto. apply forallb_forall. intros k Hk.
    destruct (given (a k)) eqn:E; [|reflexivity]. simpl. apply in_existsb. apply H; auto. apply given_spec; auto.
Qed.

Definition completeb (f : family) (a : args) : bool :=
  existsb (fun P => forallb (fun k => existsb (String.eqb k) (optional f) || given (a k)) P) (sets f).

Lemma completeb_spec f a : completeb f a = true <-> complete f a.
Proof.
  unfold completeb, complete. rewrite existsb_exists. split.
  - intros [P [HP H]]. exists P. split; auto. intros k Hk Ho. rewrite forallb_forall in H. specialize (H k Hk).
    apply orb_true_iff in H. destruct H as [H|H]; [apply in_existsb in H; contradiction|]. apply given_spec; auto.
  - intros [P [HP H]]. exists P. split; auto. apply forallb_forall. intros k Hk. apply orb_true_iff.
    destruct (existsb (String.eqb k) (optional f)) eqn:E; [left; auto|right].
    apply given_spec, H; auto. intro Hin. apply in_existsb in Hin. congruence.
Qed.

Lemma pydiv_cases a b : (exists x, pydiv a b = Ok x) \/ pydiv a b = Err ZeroDivisionError.
Proof. unfold pydiv. destruct b; eauto. destruct (Reqb r 0); eauto. Qed.
Lemma pyhalf_cases a : (exists x, pyhalf a = Ok x) \/ pyhalf a = Err TypeError.
Proof. unfold pyhalf. destruct a; eauto. destruct (Rltb r 0); eauto. Qed.
Lemma from_precision_cases a :
  (exists x, from_precision a = Ok x) \/ from_precision a = Err ZeroDivisionError \/ from_precision a = Err TypeError.
Proof.
  unfold from_precision. destruct (pyhalf_cases a) as [[x ->]| ->]; simpl; [|auto].
  destruct (pydiv_cases (Fin 1) x) as [[y ->]| ->]; eauto.
Qed.

(** Expose every outcome of the arithmetic that can raise. *)
Ltac arith_cases :=
  repeat match goal with
  | |- context [from_precision ?x] => destruct (from_precision_cases x) as [[? ->]|[-> | ->]]
  | |- context [pydiv ?x ?y] => destruct (pydiv_cases x y) as [[? ->]| ->]
  | |- context [pyhalf ?x] => destruct (pyhalf_cases x) as [[? ->]| ->]
  | H : context [from_precision ?x] |- _ =>
      let E := fresh "E" in destruct (from_precision_cases x) as [[? E]|[E | E]]; rewrite E in H
  | H : context [pydiv ?x ?y] |- _ =>
      let E := fresh "E" in destruct (pydiv_cases x y) as [[? E]| E]; rewrite E in H
  | H : context [pyhalf ?x] |- _ =>
      let E := fresh "E" in destruct (pyhalf_cases x) as [[? E]| E]; rewrite E in H
  end.

Ltac split_args a :=
  repeat match goal with
  | |- context [a ?k] => destruct (a k)
  | H : context [a ?k] |- _ => destruct (a k)
  end.

Ltac unfold_construct :=
  unfold construct, al_param, bernoulli_param, beta_param, exponential_param, gamma_param, halfnormal_param,
    halfstudentt_param, inversegamma_param, logitnormal_param, nb_param, normal_param, rice_param,
    skewstudentt_param, skewnormal_param, studentt_param, wald_param, zinb_param,
    betabinomial_param, betascaled_param, binomial_param, plain1, plain2, plain3, discreteuniform_param,
    hypergeometric_param, kumaraswamy_param, pareto_param, triangular_param, truncatednormal_param,
    uniform_param, zib_param, betabinomial_update, binomial_update, zib_update, hypergeometric_update,
    beta_from_mu_sigma, beta_from_mu_nu, gamma_from_mu_sigma, nb_from_n_p, zinb_from_p_n, al_from_q.

Lemma construct_value_error ptd f a :
  has_alternatives f -> (construct ptd f a = Err ValueError <-> compatb f a = false).
Proof.
  unfold has_alternatives. intro Halt.
  destruct f; simpl in Halt; try lia; clear Halt;
    unfold_construct; unfold compatb; cbn [signature sets forallb existsb];
    split_args a; cbn -[pydiv pyhalf from_precision xsub xpow xmul];
    try (destruct (ptd x x0));
    repeat (arith_cases; cbn -[pydiv pyhalf from_precision xsub xpow xmul]);
    unfold pyand; repeat match goal with |- context [xeqb ?u ?w] => destruct (xeqb u w) end;
    repeat (arith_cases; cbn -[pydiv pyhalf from_precision xsub xpow xmul]);
    split; intro; congruence.
Qed.

Lemma np_int64_cases a : (exists x, np_int64 a = Ok x) \/ (exists e, np_int64 a = Err e).
Proof. destruct (np_int64 a); eauto. Qed.

Ltac crunch H :=
  repeat (
   (match type of H with
    | context [from_precision ?x] =>
      let E := fresh "E" in destruct (from_precision_cases x) as [[? E]|[E | E]]; rewrite E in H; clear E
    | context [pydiv ?x ?y] =>
      let E := fresh "E" in destruct (pydiv_cases x y) as [[? E]| E]; rewrite E in H; clear E
    | context [pyhalf ?x] =>
      let E := fresh "E" in destruct (pyhalf_cases x) as [[? E]| E]; rewrite E in H; clear E
    | context [np_int64 ?x] =>
      let E := fresh "E" in destruct (np_int64_cases x) as [[? E]| [? E]]; rewrite E in H; clear E
    | context [xeqb ?x ?y] => destruct (xeqb x y)
    end);
   cbn -[pydiv pyhalf from_precision xsub xpow xmul xadd xdiv xhalf to_precision np_int64 xeqb xlogit xexpit
         truncate Int_part xfloor xceil ig_to_mu ig_to_sigma beta_to_mu_sigma gamma_to_mu_sigma nb_to_p al_to_q pymax pymin] in H).

Definition good (f : family) (d : dist) : Prop :=
  params d = map (attr d) (names d) /\ Forall (fun p => p <> None) (params d) /\ In (names d) (sets f).

Ltac cbnH H := cbn -[pydiv pyhalf from_precision xsub xpow xmul xadd xdiv xhalf to_precision np_int64 xeqb xlogit xexpit
         truncate Int_part xfloor xceil ig_to_mu ig_to_sigma beta_to_mu_sigma gamma_to_mu_sigma nb_to_p al_to_q pymax pymin] in H.

Lemma construct_frozen ptd f a d :
  f <> Kumaraswamy -> f <> ZeroInflatedNegativeBinomial ->
  construct ptd f a = Ok d -> frozen d = completeb f a /\ (frozen d = true -> good f d).
Proof.
  intros N1 N2 H. unfold completeb, good.
  destruct f; try congruence; clear N1 N2;
    revert H; unfold_construct; cbn [signature sets forallb existsb optional];
    intro H; split_args a; cbnH H;
    try (match type of H with context [ptd ?x ?y] => destruct (ptd x y) end; cbnH H);
    unfold pyand in H; crunch H; cbnH H; try discriminate; inversion H; subst d; clear H;
    (split; [reflexivity|]); intro Hf; try discriminate Hf;
    (split; [reflexivity|]); (split; [repeat (constructor; [discriminate|]); constructor|]); cbn [In names]; tauto.
Qed.
