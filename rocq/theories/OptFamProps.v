(** C26 for the families themselves: a partially specified instance, completed by an optimiser, keeps what the user
    fixed. *)
From Coq Require Import List Bool String Reals ZArith Lra Lia FunctionalExtensionality.
From Verif Require Import Base RLists XR SpecialModel FamModel FamSpec FamProofs FamReadback FamHistory FamProps OptModel OptProps.
Import ListNotations.
Open Scope R_scope.
Open Scope string_scope.

Lemma sets_nodup f P : In P (sets f) -> NoDup P.
Proof.
  intro H. destruct f; cbn [sets In] in H;
    repeat (destruct H as [<-|H]); try contradiction;
    repeat (constructor; [cbn [In]; intuition discriminate|]); constructor.
Qed.

Lemma construct_unfrozen ptd f a d : construct ptd f a = Ok d -> frozen d = false ->
  In (names d) (sets f) /\
  (f <> TruncatedNormal -> f <> BetaScaled -> forall k, In k (names d) -> attr d k = a k).
Proof.
  intros H Hf.
  destruct f; revert H; unfold_construct; cbn [sets]; intro H; 
    repeat match type of H with context [a ?k] => let E := fresh "E" in destruct (a k) eqn:E end; cbnH H;
    try (match type of H with context [ptd ?x ?y] => destruct (ptd x y) end; cbnH H);
    unfold pyand in H; crunch H; cbnH H; try discriminate; inversion H; subst d; clear H; cbn in Hf; try discriminate Hf;
    (split; [cbn [In names setN setA setAs setOs]; tauto|]); intros N1 N2; try congruence;
    cbn; intros k Hk; repeat (destruct Hk as [<-|Hk]); try contradiction; cbn; congruence.
Qed.

(** The user fixes the parameters S (v gives their values); an optimiser proposes values for the others (v again, so
    arbitrary). The instance it installs has the same parametrisation, is complete, and reports for every parameter the
    value it was given: the fixed ones theirs, the free ones the proposed. *)
Theorem C26_family_keeps_fixed : forall ptd f S v d none_idx fixed,
  ig_formula ptd -> f <> TruncatedNormal -> f <> BetaScaled ->
  construct ptd f (just S v) = Ok d -> frozen d = false -> valid f (names d) v ->
  get_fixed_params (attr d) (names d) = (none_idx, fixed) ->
  exists kw d',
    get_params (names d) (List.length (names d))
      (map (fun k => Fin (v k)) (filter (fun k => negb (existsb (String.eqb k) S)) (names d))) none_idx fixed = Ok kw /\
    construct ptd f (dict_get kw) = Ok d' /\ frozen d' = true /\ names d' = names d /\
    params d' = map (fun k => Some (Fin (readback f k (v k)))) (names d).
Proof.
  intros ptd f S v d ni fx Hp N1 N2 H Hf HV E. destruct (construct_unfrozen _ _ _ _ H Hf) as [HP HA].
  specialize (HA N1 N2).
  assert (ND : NoDup (names d)) by (eapply sets_nodup; eauto).
  assert (HF : free_names (attr d) (names d) = filter (fun k => negb (existsb (String.eqb k) S)) (names d)).
  { unfold free_names. apply filter_ext_in. intros k Hk. rewrite (HA k Hk). unfold just.
    destruct (existsb (String.eqb k) S); reflexivity. }
  rewrite <- HF.
  destruct (C26_fixed_and_free xr (names d) (attr d) ni fx (map (fun k => Fin (v k)) (free_names (attr d) (names d))) ND E)
    as (kw & Ek & Kn & Kf & Ku); [apply map_length|].
  exists kw. rewrite Ek.
  assert (X : dict_get kw = just (names d) v).
  { apply functional_extensionality. intro k. unfold just. destruct (existsb (String.eqb k) (names d)) eqn:Ex.
    - apply existsb_exists in Ex. destruct Ex as (k' & Hk' & Ek'). apply String.eqb_eq in Ek'. subst k'.
      destruct (attr d k) eqn:Ea.
      + rewrite (Kf k x Hk' Ea). rewrite (HA k Hk') in Ea. unfold just in Ea.
        destruct (existsb (String.eqb k) S); congruence.
      + assert (Hin : In k (free_names (attr d) (names d))).
        { unfold free_names. apply filter_In. rewrite Ea. auto. }
        clear - Ku Hin. induction (free_names (attr d) (names d)); [contradiction|]. inversion Ku; subst.
        destruct Hin as [->|Hin]; auto.
    - assert (Hn : ~ In k (map fst kw)).
      { rewrite Kn. intro Hn. rewrite (proj2 (existsb_exists _ _)) in Ex; [discriminate|].
        exists k. split; [exact Hn|apply String.eqb_refl]. }
      clear - Hn. induction kw as [|[k' x] kw IH]; cbn in *; [reflexivity|].
      destruct (String.eqb_spec k k'); [subst; tauto|]. apply IH. tauto. }
  rewrite X. destruct (C08_reads_back ptd f (names d) v Hp HP HV) as (d' & A & B & C & D & _).
  exists d'. auto.
Qed.
Example C26_family_applies : exists d none_idx fixed,
  construct ig_from_mu_sigma StudentT (just ["nu"] (fun _ => 4)) = Ok d /\ frozen d = false /\
  valid StudentT (names d) (fun _ => 4) /\ get_fixed_params (attr d) (names d) = (none_idx, fixed) /\
  List.length none_idx = 2%nat.
Proof.
  unfold_construct. cbn. eexists. eexists. eexists. split; [reflexivity|]. split; [reflexivity|]. split; [cbn; lra|].
  split; reflexivity.
Qed.

(** TruncatedNormal and BetaScaled: bounds that were not given are filled in at construction, so they too count as
    fixed and no optimiser changes them. *)
Theorem C26_bounds_stay : forall ptd f a d lo hi, In (f, lo, hi) [(TruncatedNormal, NInf, PInf); (BetaScaled, Fin 0, Fin 1)] ->
  construct ptd f a = Ok d -> frozen d = false ->
  attr d "lower" = Some (match a "lower" with Some x => x | None => lo end) /\
  attr d "upper" = Some (match a "upper" with Some x => x | None => hi end) /\
  (forall k, In k (names d) -> k <> "lower" -> k <> "upper" -> attr d k = a k).
Proof.
  intros ptd f a d lo hi HI H Hf. cbn [In] in HI.
  destruct HI as [HI|[HI|[]]]; injection HI as <- <- <-; revert H; unfold_construct; intro H;
    repeat match type of H with context [a ?k] => let E := fresh "E" in destruct (a k) eqn:E end; cbnH H;
    unfold pyand in H; crunch H; cbnH H; try discriminate; inversion H; subst d; clear H; cbn in Hf; try discriminate Hf;
    cbn; (split; [congruence|split; [congruence|]]); intros k Hk M1 M2;
    repeat (destruct Hk as [<-|Hk]); try contradiction; cbn; congruence.
Qed.
Example C26_bounds_applies : exists d, construct ig_from_mu_sigma TruncatedNormal (just ["lower"] (fun _ => 2)) = Ok d /\ frozen d = false.
Proof. unfold_construct. cbn. eexists. split; reflexivity. Qed.

(** The vector the optimisers iterate over has one entry per reported parameter: after any in-place update (the moment
    fit is one) params and param_names have the same length, so no parameter is left out of the bookkeeping. *)
Theorem C26_params_cover_names : forall f d u d',
  In (names d) (sets f) -> update f d u = Ok d' ->
  List.length (params d') = List.length (names d') /\ names d' = names d.
Proof.
  intros f d u d' HP HU.
  assert (N : names d' = names d).
  { apply (C10_parametrization_kept f d [u] d'). cbn. rewrite HU. reflexivity. }
  split; [|exact N]. rewrite N. clear N.
  destruct d as [nm ps at_ sp fr]. cbn [names] in *.
  destruct f; cbn [sets In] in HP; repeat (destruct HP as [<-|HP]); try contradiction;
    cbn [update] in HU;
    repeat match type of HU with
    | match ?x with _ => _ end = _ => destruct x; try discriminate
    end;
    unfold betabinomial_update, binomial_update, zib_update, hypergeometric_update in HU; cbnH HU; crunch HU; cbnH HU;
    try discriminate; inversion HU; reflexivity.
Qed.
Example C26_cover_applies : exists d d', construct ig_from_mu_sigma Beta (just ["mu"] (fun _ => 1/2)) = Ok d /\
  In (names d) (sets Beta) /\ update Beta d [Some (Fin 2); Some (Fin 3)] = Ok d'.
Proof. unfold_construct. cbn -[beta_to_mu_sigma]. eexists. eexists. split; [reflexivity|]. split; [tauto|reflexivity]. Qed.

Print Assumptions C26_family_keeps_fixed.
Print Assumptions C26_bounds_stay.
Print Assumptions C26_params_cover_names.
