(** Lemmas for C10: histories of updates. *)
From Coq Require Import List Bool String Reals Lra Lia.
From Verif Require Import Base XR SpecialModel FamModel FamSpec FamProofs.
Import ListNotations.
Open Scope R_scope.
Open Scope string_scope.

Lemma construct_names ptd f a d : construct ptd f a = Ok d ->
  In (names d) (sets f).
Proof.
  intro H. destruct f;
    revert H; unfold_construct; cbn [signature sets];
    intro H; split_args a; cbnH H;
    try (match type of H with context [ptd ?x ?y] => destruct (ptd x y) end; cbnH H);
    unfold pyand in H; crunch H; cbnH H; try discriminate; inversion H; subst d; clear H; cbn [In names]; tauto.
Qed.

Lemma construct_supp ptd f a d : fixed_support f -> construct ptd f a = Ok d -> supp d = natural_support f.
Proof.
  intros Hfix H. unfold fixed_support in Hfix. destruct f; try (exfalso; apply Hfix; cbn [In]; tauto); clear Hfix;
    revert H; unfold_construct; cbn [signature sets];
    intro H; split_args a; cbnH H;
    try (match type of H with context [ptd ?x ?y] => destruct (ptd x y) end; cbnH H);
    unfold pyand in H; crunch H; cbnH H; try discriminate; inversion H; subst d; clear H; reflexivity.
Qed.

Ltac split_list v :=
  destruct v as [|v1 [|v2 [|v3 [|v4 [|v5 vr]]]]];
  try destruct v1; try destruct v2; try destruct v3; try destruct v4.

Lemma update_names f d v d' : update f d v = Ok d' -> names d' = names d.
Proof.
  intro H. destruct f; split_list v; try discriminate H; cbn [update] in H;
    unfold betabinomial_update, binomial_update, zib_update, hypergeometric_update in H;
    repeat match type of H with
    | context [np_int64 ?x] => destruct (np_int64 x); cbn [bind] in H; try discriminate H
    end; inversion H; subst d'; clear H;
    unfold al_update, bernoulli_update, beta_update, exponential_update, gamma_update, halfnormal_update,
      halfstudentt_update, inversegamma_update, logitnormal_update, nb_update, normal_update, rice_update,
      skewstudentt_update, skewnormal_update, studentt_update, wald_update, zinb_update, betascaled_update,
      truncatednormal_update, beta_to_mu_sigma, gamma_to_mu_sigma;
    cbn zeta;
    repeat match goal with |- context [if ?c then _ else _] => destruct c end; reflexivity.
Qed.

Lemma update_supp f d v d' : fixed_support f -> update f d v = Ok d' -> supp d' = supp d.
Proof.
  intros Hfix H. unfold fixed_support in Hfix. destruct f; try (exfalso; apply Hfix; cbn [In]; tauto); clear Hfix;
    split_list v; try discriminate H; cbn [update] in H;
    inversion H; subst d'; clear H;
    unfold al_update, bernoulli_update, beta_update, exponential_update, gamma_update, halfnormal_update,
      halfstudentt_update, inversegamma_update, logitnormal_update, nb_update, normal_update, rice_update,
      skewstudentt_update, skewnormal_update, studentt_update, wald_update, zinb_update,
      beta_to_mu_sigma, gamma_to_mu_sigma;
    cbn zeta;
    repeat match goal with |- context [if ?c then _ else _] => destruct c end; reflexivity.
Qed.

Ltac unfold_updates := unfold al_update, bernoulli_update, beta_update, exponential_update, gamma_update, halfnormal_update,
      halfstudentt_update, inversegamma_update, logitnormal_update, nb_update, normal_update, rice_update,
      skewstudentt_update, skewnormal_update, studentt_update, wald_update, zinb_update, betascaled_update,
      truncatednormal_update, kumaraswamy_update, pareto_update, triangular_update, uniform_update, discreteuniform_update.
Ltac cbnU := cbn -[pydiv pyhalf from_precision xsub xpow xmul xadd xdiv xhalf to_precision np_int64 xeqb xlogit xexpit
         truncate Int_part xfloor xceil ig_to_mu ig_to_sigma beta_to_mu_sigma gamma_to_mu_sigma nb_to_p al_to_q
         pymax pymin pow eps Rfloor Rceil].

(** What an update leaves behind depends on the instance through its parametrization only. *)
Lemma update_agree f d e u d' :
  In (names d) (sets f) -> names e = names d -> (fixed_support f -> supp e = supp d) -> sets_bounds f u ->
  update f d u = Ok d' -> exists e', update f e u = Ok e' /\ same_view f d' e'.
Proof.
  intros HN He Hs Hb H. unfold same_view.
  destruct d as [nd pd ad sd fd], e as [ne pe ae se fe]; cbn in HN, He, Hs. subst ne.
  destruct f; cbn [sets_bounds] in Hb;
    try (match type of Hb with ex _ => destruct Hb as [x1 [x2 [x3 [x4 Hb]]]]; subst u end);
    try (match type of u with _ => split_list u end; try discriminate H); cbn [update] in H |- *;
    unfold betabinomial_update, binomial_update, zib_update, hypergeometric_update in H |- *;
    repeat match type of H with
    | context [np_int64 ?x] => destruct (np_int64 x); cbn [bind] in H |- *; try discriminate H
    end;
    injection H as <-;
    (eexists; split; [reflexivity|]);
    try (specialize (Hs ltac:(unfold fixed_support; cbn [In]; intuition congruence)); subst se);
    cbn [sets In] in HN; repeat (destruct HN as [<-|HN]); try contradiction;
    unfold_updates;
    try (match goal with |- context [beta_to_mu_sigma ?x ?y] => destruct (beta_to_mu_sigma x y) end);
    try (match goal with |- context [gamma_to_mu_sigma ?x ?y] => destruct (gamma_to_mu_sigma x y) end);
    cbnU;
    (split; [reflexivity|]; split; [reflexivity|]; split; [reflexivity|]; split; [reflexivity|]);
    cbn [In]; intros k Hk; repeat (destruct Hk as [<-|Hk]); try contradiction; reflexivity.
Qed.

Lemma updates_names f us : forall d d', updates f d us = Ok d' -> names d' = names d.
Proof.
  induction us as [|u us IH]; simpl; intros d d' H; [congruence|].
  destruct (update f d u) eqn:E; [|discriminate]. apply update_names in E. rewrite (IH _ _ H). exact E.
Qed.
Lemma updates_supp f us : fixed_support f -> forall d d', updates f d us = Ok d' -> supp d' = supp d.
Proof.
  intro F. induction us as [|u us IH]; simpl; intros d d' H; [congruence|].
  destruct (update f d u) eqn:E; [|discriminate]. apply update_supp in E; auto. rewrite (IH _ _ H). exact E.
Qed.
Lemma updates_app f us vs d : updates f d (us ++ vs)%list = match updates f d us with Ok d' => updates f d' vs | Err e => Err e end.
Proof.
  revert d. induction us as [|u us IH]; intro d; simpl; [reflexivity|].
  destruct (update f d u); auto.
Qed.

(** One update of a family whose support depends on parameters. *)
Definition shaped (f : family) (d : dist) : Prop :=
  match f with
  | TruncatedNormal | BetaScaled => exists l h, attr d "lower" = Some l /\ attr d "upper" = Some h
  | _ => True
  end.
Definition tracks (f : family) (d : dist) : Prop :=
  params d = map (attr d) (names d) /\ Forall (fun p => p <> None) (params d) /\
  supp d = support_of f (fun k => np_float64 (attr d k)).

Lemma construct_shaped ptd f a d : construct ptd f a = Ok d -> shaped f d.
Proof.
  intro H. destruct f; try exact I; revert H; unfold_construct; unfold shaped;
    intro H; split_args a; cbnH H; injection H as <-; cbn; eauto.
Qed.

Lemma update_tracks f d u d' : tracked f -> In (names d) (sets f) -> shaped f d ->
  update f d u = Ok d' -> shaped f d' /\ tracks f d' /\ frozen d' = true.
Proof.
  unfold tracked. intros Ht HN Hsh H. unfold tracks.
  destruct d as [nd pd ad sd fd]; cbn in HN, Hsh.
  cbn [In] in Ht. repeat (destruct Ht as [<-|Ht]); try contradiction;
    cbn [sets In] in HN; repeat (destruct HN as [<-|HN]); try contradiction;
    unfold shaped in *; cbn [attr] in Hsh; try (destruct Hsh as [lo [hi [Hlo Hhi]]]);
    split_list u; try discriminate H; cbn [update] in H |- *;
    unfold betabinomial_update, binomial_update, zib_update, hypergeometric_update in H |- *;
    repeat match type of H with
    | context [np_int64 ?x] => destruct (np_int64 x); cbn [bind] in H |- *; try discriminate H
    end;
    injection H as <-; unfold_updates; cbnU; rewrite ?Hlo, ?Hhi;
    try (match goal with |- context [xeqb ?a ?b] => destruct (xeqb a b) end);
    (split; [eauto|]; split; [|reflexivity]; split; [reflexivity|]; split; [|reflexivity]);
    repeat (apply Forall_cons; [discriminate|]); apply Forall_nil.
Qed.

Lemma construct_tracks ptd f a d : tracked f -> construct ptd f a = Ok d -> frozen d = true -> tracks f d.
Proof.
  unfold tracked. intros Ht H Hf. unfold tracks.
  cbn [In] in Ht. repeat (destruct Ht as [<-|Ht]); try contradiction;
    revert H; unfold_construct; intro H; split_args a; cbnH H;
    repeat match type of H with
    | context [np_int64 ?x] => destruct (np_int64 x); cbn [bind] in H |- *; try discriminate H
    end; injection H as <-; try discriminate Hf; unfold_updates; cbnU;
    try (match goal with |- context [xeqb ?a ?b] => destruct (xeqb a b) end);
    (split; [reflexivity|]; split; [|reflexivity]);
    repeat (apply Forall_cons; [discriminate|]); apply Forall_nil.
Qed.

Lemma updates_tracks f us : tracked f -> forall d d', In (names d) (sets f) -> shaped f d ->
  (frozen d = true -> tracks f d) -> updates f d us = Ok d' -> frozen d' = true -> tracks f d'.
Proof.
  intro Ht. induction us as [|u us IH]; simpl; intros d d' HN Hs Hd H Hf.
  - injection H as <-. auto.
  - destruct (update f d u) as [d1|] eqn:E; [|discriminate].
    destruct (update_tracks _ _ _ _ Ht HN Hs E) as [A [B C]].
    apply (IH d1); auto. rewrite (update_names _ _ _ _ E). exact HN.
Qed.
