(** Property theorems for the constructors of the univariate families: C06-C10. *)
From Coq Require Import List Bool String Reals Lra Lia.
From Verif Require Import Base XR SpecialModel FamModel FamSpec FamProofs FamArith FamReadback FamRound FamHistory.
Import ListNotations.
Open Scope R_scope.
Open Scope string_scope.

Ltac given_no := let H := fresh in intro H; apply H; reflexivity.

(* ---------------- C06 ---------------- *)
(** A family with alternatives raises ValueError exactly when the arguments given do not fit together in one
    documented parameter set, whatever their values. *)
Theorem C06_mixed_sets_rejected : forall ptd f a,
  has_alternatives f -> (construct ptd f a = Err ValueError <-> ~ compatible f a).
Proof.
  intros ptd f a H. rewrite (construct_value_error ptd f a H), <- compatb_spec.
  destruct (compatb f a); intuition congruence.
Qed.
Example C06_mixed_rejects : ~ compatible Beta (just ["alpha"; "sigma"] (fun _ => 1)).
Proof.
  intros [P [HP H]]. cbn [sets In] in HP.
  assert (A : In "alpha" P) by (apply H; [cbn; tauto | discriminate]).
  assert (B : In "sigma" P) by (apply H; [cbn; tauto | discriminate]).
  destruct HP as [<-|[<-|[<-|[]]]]; cbn in A, B; intuition discriminate.
Qed.
Example C06_mixed_accepts : compatible Beta (just ["mu"; "sigma"] (fun _ => 1)) /\ has_alternatives Beta.
Proof.
  split; [|unfold has_alternatives; cbn; lia]. exists ["mu"; "sigma"]. split; [cbn; tauto|].
  cbn. intros k Hk Hg. intuition subst; auto; exfalso; apply Hg; reflexivity.
Qed.

(** Families with a single parameter set never raise it: any choice of finite arguments constructs. *)
Theorem C06_single_set_never_raises : forall ptd f a,
  ~ has_alternatives f -> (forall k x, In k (signature f) -> a k = Some x -> exists r, x = Fin r) ->
  exists d, construct ptd f a = Ok d.
Proof.
  intros ptd f a Hn Hf. unfold has_alternatives in Hn.
  destruct f; try (exfalso; apply Hn; cbn; lia); clear Hn; cbn [signature In] in Hf; unfold_construct;
    repeat match goal with
    | |- context [a ?k] =>
        let E := fresh "E" in destruct (a k) eqn:E;
        [let r := fresh "r" in destruct (Hf k _ ltac:(tauto) E) as [r ->]|]
    end; cbn; eauto;
    match goal with |- context [match ?c with _ => _ end] => destruct c end; eauto.
Qed.
Example C06_single_set_applies : exists d, construct ig_from_mu_sigma HyperGeometric
  (just ["N"; "k"; "n"] (fun k => if String.eqb k "N" then 50 else 10)) = Ok d.
Proof.
  apply C06_single_set_never_raises.
  - unfold has_alternatives; cbn; lia.
  - cbn. intros k x [<-|[<-|[<-|[]]]] H; injection H as <-; eauto.
Qed.

(* ---------------- C07 ---------------- *)
(** Frozen exactly when one documented parameter set is complete; then params lists the value of every
    parameter in param_names and none is missing. *)
Definition well_formed (f : family) (d : dist) : Prop :=
  In (names d) (sets f) /\ params d = map (attr d) (names d) /\ Forall (fun p => p <> None) (params d).

Theorem C07_frozen_iff_complete : forall ptd f a d,
  f <> Kumaraswamy -> f <> ZeroInflatedNegativeBinomial -> construct ptd f a = Ok d ->
  (frozen d = true <-> complete f a) /\ (frozen d = true -> well_formed f d).
Proof.
  intros ptd f a d N1 N2 H. destruct (construct_frozen ptd f a d N1 N2 H) as [A B]. split.
  - rewrite A. apply completeb_spec.
  - intro F. destruct (B F) as [C [D E]]. repeat split; auto.
Qed.
Example C07_frozen_applies : exists d,
  construct ig_from_mu_sigma Wald (just ["lam"; "phi"] (fun _ => 2)) = Ok d /\ complete Wald (just ["lam"; "phi"] (fun _ => 2)).
Proof.
  assert (HP : In ["lam"; "phi"] (sets Wald)) by (cbn; tauto).
  destruct (all_read_back ig_from_mu_sigma ltac:(reflexivity) Wald ["lam"; "phi"] (fun _ => 2) HP) as [d [H _]].
  { cbn. lra. }
  exists d. split; [exact H|]. exists ["lam"; "phi"]. split; [exact HP|].
  intros k Hk _. unfold is_given, just. apply in_existsb in Hk. rewrite Hk. discriminate.
Qed.

(** Kumaraswamy: the same unless [a] is zero. *)
Theorem C07_kumaraswamy : forall ptd a d,
  a "a" <> Some (Fin 0) -> construct ptd Kumaraswamy a = Ok d ->
  (frozen d = true <-> complete Kumaraswamy a) /\ (frozen d = true -> well_formed Kumaraswamy d).
Proof.
  intros ptd a d H0 H. rewrite <- completeb_spec. unfold completeb, well_formed. revert H. unfold_construct.
  unfold pyand. cbn [sets forallb existsb optional].
  destruct (a "a") as [x|]; [destruct (xeqb x (Fin 0)) eqn:E|]; [ | |].
  - exfalso. apply H0. destruct x; try discriminate. cbn in E. destruct (Reqb_spec r 0); [subst; auto|discriminate].
  - destruct (a "b"); cbn; intro H; injection H as <-; cbn;
      (split; [split; intro; reflexivity || discriminate|]); intro; try discriminate.
    repeat split; auto. repeat (apply Forall_cons; [discriminate|]); apply Forall_nil.
  - destruct (a "b"); cbn; intro H; injection H as <-; cbn;
      (split; [split; intro; reflexivity || discriminate|]); intro; discriminate.
Qed.
Example C07_kumaraswamy_applies : just ["a"; "b"] (fun _ => 2) "a" <> Some (Fin 0).
Proof. cbn. intro H. injection H. lra. Qed.

(** With [a = 0] and [b] omitted it is frozen although incomplete, with b = nan. *)
Theorem C07_kumaraswamy_zero_refuted : exists a d,
  construct ig_from_mu_sigma Kumaraswamy a = Ok d /\ ~ complete Kumaraswamy a /\ frozen d = true /\ attr d "b" = Some NaN.
Proof.
  exists (just ["a"] (fun _ => 0)). unfold_construct. cbn. destruct (Reqb_spec 0 0); [|congruence].
  eexists; split; [reflexivity|]. split; [|split; reflexivity].
  rewrite <- completeb_spec. cbn. discriminate.
Qed.

(** ZeroInflatedNegativeBinomial: the same when psi is given ... *)
Theorem C07_zinb : forall ptd a d,
  is_given a "psi" -> construct ptd ZeroInflatedNegativeBinomial a = Ok d ->
  (frozen d = true <-> complete ZeroInflatedNegativeBinomial a) /\
  (frozen d = true -> well_formed ZeroInflatedNegativeBinomial d).
Proof.
  intros ptd a d H0 H. rewrite <- completeb_spec. unfold completeb, well_formed. unfold is_given in H0.
  revert H; unfold_construct; cbn [signature sets forallb existsb optional].
  intro H; split_args a; try congruence; cbnH H; crunch H; cbnH H; try discriminate; injection H as <-; cbn -[pydiv xdiv];
    (split; [split; intro; reflexivity || discriminate|]); intro Hf; try discriminate Hf;
    (split; [tauto|]; split; [reflexivity|]); repeat (apply Forall_cons; [discriminate|]); apply Forall_nil.
Qed.
Example C07_zinb_applies : is_given (just ["psi"; "p"; "n"] (fun _ => 1/2)) "psi".
Proof. discriminate. Qed.
(** ... but without psi it is frozen with psi = nan. *)
Theorem C07_zinb_without_psi_refuted : exists a d,
  construct ig_from_mu_sigma ZeroInflatedNegativeBinomial a = Ok d /\ ~ complete ZeroInflatedNegativeBinomial a /\
  frozen d = true /\ attr d "psi" = Some NaN.
Proof.
  exists (just ["mu"; "alpha"] (fun _ => 1)). unfold_construct. cbn -[xdiv].
  eexists; split; [reflexivity|]. split; [|split; reflexivity].
  rewrite <- completeb_spec. cbn. discriminate.
Qed.

(** Whatever was given is among the reported parameter names (Wald with phi alone excepted). *)
Theorem C07_given_are_reported : forall ptd f a d k,
  construct ptd f a = Ok d -> In k (signature f) -> is_given a k ->
  (f = Wald -> is_given a "mu" \/ is_given a "lam") ->
  In k (names d).
Proof.
  intros ptd f a d k H Hk Hg HW. unfold is_given in *.
  destruct f; (specialize (HW eq_refl) || clear HW);
    revert H; unfold_construct; cbn [signature In] in Hk;
    repeat (destruct Hk as [<-|Hk]); try contradiction;
    intro H; split_args a; try congruence; try (destruct HW; congruence); cbnH H;
    try (match type of H with context [ptd ?x ?y] => destruct (ptd x y) end; cbnH H);
    unfold pyand in H; crunch H; cbnH H; try discriminate; inversion H; subst d; clear H; cbn -[to_precision xdiv]; tauto.
Qed.
Example C07_given_applies : In "mu" (signature Beta) /\ is_given (just ["mu"] (fun _ => 1/2)) "mu".
Proof. split; [cbn; tauto|discriminate]. Qed.
(** Wald(phi=...) alone silently drops phi from the reported names. *)
Theorem C07_wald_phi_dropped_refuted : exists a d,
  construct ig_from_mu_sigma Wald a = Ok d /\ is_given a "phi" /\ ~ In "phi" (names d).
Proof.
  exists (just ["phi"] (fun _ => 1)). unfold_construct. cbn. eexists; split; [reflexivity|].
  split; [discriminate|]. cbn. intuition discriminate.
Qed.

(* ---------------- C08 ---------------- *)
(** What pytensor_distributions computes for InverseGamma(mu, sigma): the only external formula involved. *)
Definition ig_formula (ptd : xr -> xr -> xr * xr) : Prop :=
  forall mu sigma, 0 < sigma -> ptd (Fin mu) (Fin sigma) = ig_from_mu_sigma (Fin mu) (Fin sigma).
Example ig_formula_holds : ig_formula ig_from_mu_sigma.
Proof. intros mu sigma _. reflexivity. Qed.

(** Constructing with any documented parameter set inside its valid region succeeds, freezes, and reports back the
    given names and values; the canonical attributes are the documented transformation of them. *)
Theorem C08_reads_back : forall ptd f P v,
  ig_formula ptd -> In P (sets f) -> valid f P v ->
  exists d, construct ptd f (just P v) = Ok d /\ frozen d = true /\ names d = P /\
    params d = map (fun k => Some (Fin (readback f k (v k)))) P /\
    Forall (fun kx => attr d (fst kx) = Some (Fin (snd kx))) (documented f P v).
Proof.
  intros ptd f P v Hp HP HV. destruct (all_read_back ptd Hp f P v HP HV) as [d [A [B [C [D E]]]]].
  exists d. auto.
Qed.
Example C08_applies : valid Beta ["mu"; "sigma"] (fun k => if String.eqb k "mu" then 1/2 else 1/4).
Proof. cbn. lra. Qed.

(** Precisions are reported with relative error at most eps * tau, never above the given value. *)
Theorem C08_precision_bias : forall f k x, In k (signature f) -> In k ["tau"; "lam"] -> 0 < x ->
  0 <= x - readback f k x <= (eps * x) * x.
Proof.
  intros f k x Hs Hk Hx. assert (He : 0 < eps) by apply eps_pos.
  assert (B : 0 <= x - x <= eps * x * x) by (split; [lra|]; nra).
  assert (A : 0 <= x - x / (1 + eps * x) <= eps * x * x).
  { assert (0 < 1 + eps * x) by nra.
    replace (x - x / (1 + eps * x)) with (eps * x * x / (1 + eps * x)) by (field; lra).
    split.
    - apply Rmult_le_pos; [nra|]. left. apply Rinv_0_lt_compat. lra.
    - apply Rmult_le_reg_r with (1 + eps * x); [lra|]. unfold Rdiv. rewrite Rmult_assoc, Rinv_l by lra. nra. }
  cbn [In] in Hk. destruct Hk as [<-|[<-|[]]]; destruct f; cbn [readback]; try exact B; try exact A;
    cbn in Hs; intuition discriminate.
Qed.
Example C08_bias_attained : readback Normal "tau" 1 < 1.
Proof.
  cbn. pose proof eps_pos. apply Rmult_lt_reg_r with (1 + eps * 1); [nra|].
  unfold Rdiv. rewrite Rmult_assoc, Rinv_l by nra. lra.
Qed.
(** All other real-valued parameters are reported exactly; only counts and DiscreteUniform bounds are rounded. *)
Theorem C08_exact : forall f k x, ~ In k ["tau"; "lam"] ->
  ~ In f [BetaBinomial; Binomial; ZeroInflatedBinomial; HyperGeometric; DiscreteUniform] -> readback f k x = x.
Proof.
  intros f k x Hk Hf. unfold readback.
  destruct (string_dec k "tau"); [subst; exfalso; apply Hk; cbn; tauto|].
  destruct (string_dec k "lam"); [subst; exfalso; apply Hk; cbn; tauto|].
  destruct f; try reflexivity; try (exfalso; apply Hf; cbn [In]; tauto);
    repeat match goal with |- context [match ?s with _ => _ end] => destruct s; try reflexivity; try congruence end.
Qed.
Example C08_exact_applies : readback Gamma "mu" 3 = 3.
Proof. apply C08_exact; cbn; intuition discriminate. Qed.

(* ---------------- C09 ---------------- *)
(** Take a canonical instance, read off any documented parameter set, construct from it: the canonical parameters are
    those of the first instance, up to the precision bias. *)
Theorem C09_alternative_agrees : forall ptd f P v,
  ig_formula ptd -> has_alternatives f -> In P (sets f) -> valid f (canonical f) v ->
  exists d1, construct ptd f (just (canonical f) v) = Ok d1 /\
    (forall k, In k P -> exists x, attr d1 k = Some (Fin x)) /\
    forall w, (forall k, In k P -> attr d1 k = Some (Fin (w k))) ->
      exists d2, construct ptd f (just P w) = Ok d2 /\
        forall k, In k (canonical f) -> attr d2 k = Some (Fin (round_trip f P k (v k))).
Proof. intros ptd f P v Hp Ha HP HV. exact (all_round ptd Hp f P v Ha HP HV). Qed.
Example C09_applies : valid InverseGamma (canonical InverseGamma) (fun _ => 3) /\ In ["mu"; "sigma"] (sets InverseGamma).
Proof. split; cbn; [lra|tauto]. Qed.

(** The bias on a scale after the round trip through a precision: at most eps / (2 sigma), upwards. *)
Theorem C09_round_trip_bias : forall f P k x, 0 < x ->
  x <= round_trip f P k x <= x + eps / (2 * x).
Proof.
  intros f P k x Hx. assert (He : 0 < eps) by apply eps_pos.
  assert (Q : 0 < eps / (2 * x)) by (apply Rdiv_lt_0_compat; lra).
  assert (A : x <= sqrt (eps + x ^ 2) <= x + eps / (2 * x)).
  { split.
    - rewrite <- (sqrt_pow2 x) at 1 by lra. apply sqrt_le_1; nra.
    - rewrite <- (sqrt_pow2 (x + eps / (2 * x))) by lra. apply sqrt_le_1; [nra| nra|].
      replace ((x + eps / (2 * x)) ^ 2) with (x ^ 2 + eps + (eps / (2 * x)) ^ 2) by (field; lra). nra. }
  assert (B : x <= x <= x + eps / (2 * x)) by lra.
  unfold round_trip. destruct (String.eqb k "sigma"); [|exact B].
  destruct f; try exact B; destruct (existsb _ P); assumption.
Qed.
(** Without a precision in the parameter set the agreement is exact. *)
Theorem C09_exact : forall f P k x, ~ In "tau" P -> ~ In "lam" P -> round_trip f P k x = x.
Proof.
  intros f P k x H1 H2. unfold round_trip.
  assert (A : forall s, ~ In s P -> existsb (String.eqb s) P = false).
  { intros s Hs. destruct (existsb (String.eqb s) P) eqn:E; [apply in_existsb in E; contradiction|reflexivity]. }
  rewrite (A _ H1), (A _ H2). destruct (String.eqb k "sigma"); [|reflexivity]. destruct f; reflexivity.
Qed.
Example C09_exact_applies : round_trip Beta ["mu"; "sigma"] "alpha" 3 = 3.
Proof. apply C09_exact; cbn; intuition discriminate. Qed.

(* ---------------- C10 ---------------- *)
(** Families whose support depends on the parameters: after any history of updates, an instance that is frozen has the
    support determined by its current attributes, and params lists exactly those attributes. *)
Theorem C10_support_tracks : forall ptd f a d0 us d,
  tracked f -> construct ptd f a = Ok d0 -> updates f d0 us = Ok d -> frozen d = true ->
  params d = map (attr d) (names d) /\ Forall (fun p => p <> None) (params d) /\
  supp d = support_of f (fun k => np_float64 (attr d k)).
Proof.
  intros ptd f a d0 us d Ht H0 Hu Hf.
  apply (updates_tracks f us Ht d0 d); auto.
  - eapply construct_names; eauto.
  - eapply construct_shaped; eauto.
  - intro F. eapply construct_tracks; eauto.
Qed.
Example C10_support_example : exists d0 d,
  construct ig_from_mu_sigma Uniform (just [] (fun _ => 0)) = Ok d0 /\
  updates Uniform d0 [[Some (Fin 1); Some (Fin 5)]; [Some (Fin (-2)); Some (Fin 3)]] = Ok d /\
  supp d = (Fin (-2), Fin 3) /\ tracked Uniform.
Proof.
  unfold_construct. cbn. eexists; eexists; repeat split; try reflexivity. unfold tracked; cbn [In]; tauto.
Qed.

(** All other families (HyperGeometric apart) keep their natural support for ever. *)
Theorem C10_fixed_support : forall ptd f a d0 us d,
  fixed_support f -> construct ptd f a = Ok d0 -> updates f d0 us = Ok d -> supp d = natural_support f.
Proof.
  intros ptd f a d0 us d Hf H0 Hu. rewrite (updates_supp f us Hf d0 d Hu). eapply construct_supp; eauto.
Qed.
Example C10_fixed_example : fixed_support Gamma.
Proof. unfold fixed_support. cbn [In]. intuition discriminate. Qed.

(** No history leaks: what can be read off an instance after a last update is the same whatever happened before. *)
Theorem C10_last_update_decides : forall ptd f a d0 us u d,
  construct ptd f a = Ok d0 -> sets_bounds f u -> updates f d0 (us ++ [u])%list = Ok d ->
  exists e, updates f d0 [u] = Ok e /\ same_view f d e.
Proof.
  intros ptd f a d0 us u d H0 Hb H. rewrite updates_app in H.
  destruct (updates f d0 us) as [d1|] eqn:E; [|discriminate].
  cbn [updates] in H |- *. destruct (update f d1 u) as [d2|] eqn:E2; [|discriminate]. injection H as <-.
  pose proof (updates_names _ _ _ _ E) as N. pose proof (construct_names _ _ _ _ H0) as N0.
  destruct (update_agree f d1 d0 u d2) as [e [A B]]; auto.
  - rewrite N; exact N0.
  - intro F. symmetry. apply (updates_supp f us F d0 d1 E).
  - exists e. rewrite A. auto.
Qed.
Example C10_last_example : sets_bounds Normal [Some (Fin 0); Some (Fin 1)].
Proof. exact I. Qed.
(** ... and the parametrization chosen at construction is never lost. *)
Theorem C10_parametrization_kept : forall f d0 us d, updates f d0 us = Ok d -> names d = names d0.
Proof. intros f d0 us d H. exact (updates_names f us d0 d H). Qed.

(** TruncatedNormal and BetaScaled: an update that leaves the bounds out keeps them. *)
Theorem C10_bounds_kept : forall f d x y d', In f [TruncatedNormal; BetaScaled] ->
  update f d [x; y] = Ok d' -> attr d' "lower" = attr d "lower" /\ attr d' "upper" = attr d "upper".
Proof.
  intros f d x y d' Hf H. cbn [In] in Hf. destruct Hf as [<-|[<-|[]]]; cbn [update] in H;
    destruct x, y; injection H as <-; split; reflexivity.
Qed.
Example C10_bounds_example : exists d', update BetaScaled (fresh (Fin 0, Fin 1)) [Some (Fin 1); Some (Fin 2)] = Ok d'.
Proof. eexists. reflexivity. Qed.

Lemma Int_part_IZR z : Int_part (IZR z) = z.
Proof.
  destruct (base_Int_part (IZR z)) as [A B].
  assert (Int_part (IZR z) <= z)%Z by (apply le_IZR; lra).
  assert (z - 1 < Int_part (IZR z))%Z by (apply lt_IZR; rewrite minus_IZR; lra). lia.
Qed.

(** HyperGeometric: with integer arguments the support is that of the current parameters ... *)
Theorem C10_hypergeometric : forall d N k n d',
  (0 <= N)%Z -> (0 <= k)%Z -> (0 <= n)%Z ->
  update HyperGeometric d [Some (Fin (IZR N)); Some (Fin (IZR k)); Some (Fin (IZR n))] = Ok d' ->
  attr d' "N" = Some (Fin (IZR N)) /\ attr d' "k" = Some (Fin (IZR k)) /\ attr d' "n" = Some (Fin (IZR n)) /\
  supp d' = (Fin (IZR (Z.max 0 (n - N + k))), Fin (IZR (Z.min k n))).
Proof.
  intros d N k n d' HN Hk Hn H. cbn [update] in H. unfold hypergeometric_update in H.
  rewrite !np_int64_fin in H by (apply IZR_le; lia). cbn [bind] in H. injection H as <-.
  rewrite !Int_part_IZR. cbn -[pymax pymin]. do 3 (split; [reflexivity|]).
  unfold pymax, pymin. cbn.
  replace (IZR n + - IZR N + IZR k) with (IZR (n - N + k)) by (rewrite plus_IZR, minus_IZR; reflexivity). f_equal.
  - destruct (Rltb_spec 0 (IZR (n - N + k))) as [L|L]; f_equal; f_equal.
    + apply (lt_IZR 0) in L. lia.
    + assert (n - N + k <= 0)%Z by (apply le_IZR; lra). lia.
  - destruct (Rltb_spec (IZR n) (IZR k)) as [L|L]; f_equal; f_equal.
    + apply lt_IZR in L. lia.
    + assert (k <= n)%Z by (apply le_IZR; lra). lia.
Qed.
Example C10_hypergeometric_example : exists d',
  update HyperGeometric (fresh (Fin 0, PInf)) [Some (Fin (IZR 50)); Some (Fin (IZR 10)); Some (Fin (IZR 45))] = Ok d' /\
  supp d' = (Fin 5, Fin 10).
Proof.
  destruct (update HyperGeometric (fresh (Fin 0, PInf)) [Some (Fin (IZR 50)); Some (Fin (IZR 10)); Some (Fin (IZR 45))])
    as [d'|] eqn:E.
  - exists d'. split; [reflexivity|]. apply C10_hypergeometric in E; try lia. destruct E as [_ [_ [_ ->]]]. reflexivity.
  - cbn [update] in E. unfold hypergeometric_update in E. rewrite !np_int64_fin in E by lra. discriminate.
Qed.
(** ... but with a fractional argument it is computed from the raw value and disagrees with the parameters. *)
Theorem C10_hypergeometric_fraction_refuted : exists d,
  construct ig_from_mu_sigma HyperGeometric
    (just ["N"; "k"; "n"] (fun k => if String.eqb k "N" then 50 else if String.eqb k "k" then 10 else 5/2)) = Ok d /\
  frozen d = true /\ attr d "n" = Some (Fin 2) /\ snd (supp d) = Fin (5/2).
Proof.
  unfold_construct. cbn -[np_int64 pymax pymin xadd xsub]. rewrite !np_int64_fin by lra. cbn [bind].
  eexists; split; [reflexivity|]. cbn -[Int_part Rltb pymax]. repeat split.
  - do 2 f_equal. assert (E : Int_part (5/2) = 2%Z).
    { destruct (base_Int_part (5/2)) as [A B].
      assert (Int_part (5/2) < 3)%Z by (apply lt_IZR; lra). assert (1 < Int_part (5/2))%Z by (apply lt_IZR; lra). lia. }
    rewrite E. reflexivity.
  - unfold pymin. cbn. destruct (Rltb_spec (5/2) 10); [reflexivity|lra].
Qed.

Print Assumptions C06_mixed_sets_rejected.
Print Assumptions C06_single_set_never_raises.
Print Assumptions C07_frozen_iff_complete.
Print Assumptions C07_kumaraswamy.
Print Assumptions C07_zinb.
Print Assumptions C07_given_are_reported.
Print Assumptions C08_reads_back.
Print Assumptions C08_precision_bias.
Print Assumptions C09_alternative_agrees.
Print Assumptions C09_round_trip_bias.
Print Assumptions C10_support_tracks.
Print Assumptions C10_last_update_decides.
Print Assumptions C10_hypergeometric.
