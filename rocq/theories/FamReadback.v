(** C08: constructing with a complete parameter set and reading it back. *)
From Coq Require Import List Bool String Reals Lra Lia.
From Verif Require Import Base XR SpecialModel FamModel FamSpec FamProofs FamArith.
Import ListNotations.
Open Scope R_scope.
Open Scope string_scope.

Ltac cbnG := cbn -[pydiv pyhalf from_precision xsub xpow xmul xadd xdiv xhalf to_precision np_int64 xeqb xlogit xexpit
         truncate Int_part xfloor xceil ig_to_mu ig_to_sigma beta_to_mu_sigma gamma_to_mu_sigma nb_to_p al_to_q
         beta_from_mu_sigma beta_from_mu_nu gamma_from_mu_sigma nb_from_n_p zinb_from_p_n al_from_q pymax pymin pow eps Rfloor Rceil].

Ltac ucons :=
  unfold construct, al_param, bernoulli_param, beta_param, exponential_param, gamma_param, halfnormal_param,
    halfstudentt_param, inversegamma_param, logitnormal_param, nb_param, normal_param, rice_param,
    skewstudentt_param, skewnormal_param, studentt_param, wald_param, zinb_param,
    betabinomial_param, betascaled_param, binomial_param, plain1, plain2, plain3, discreteuniform_param,
    hypergeometric_param, kumaraswamy_param, pareto_param, triangular_param, truncatednormal_param,
    uniform_param, zib_param, betabinomial_update, binomial_update, zib_update, hypergeometric_update.

Definition reads_back ptd (f : family) (P : list string) (v : string -> R) : Prop :=
  exists d, construct ptd f (just P v) = Ok d /\ names d = P /\ frozen d = true /\
    params d = map (fun k => Some (Fin (readback f k (v k)))) P /\
    Forall (fun kx => attr d (fst kx) = Some (Fin (snd kx))) (documented f P v).

Ltac finish :=
  eexists; split; [reflexivity|]; cbnG; split; [reflexivity|]; split; [reflexivity|];
  split; [|repeat (apply Forall_cons; [cbnG|]); try apply Forall_nil].

Section RB.
Variable ptd : xr -> xr -> xr * xr.
Hypothesis ptd_ok : forall mu sigma, 0 < sigma -> ptd (Fin mu) (Fin sigma) = ig_from_mu_sigma (Fin mu) (Fin sigma).

Lemma rb_precision f P v :
  In f [HalfNormal; HalfStudentT; LogitNormal; Normal; SkewStudentT; SkewNormal; StudentT] ->
  In P (sets f) -> valid f P v -> reads_back ptd f P v.
Proof.
  cbn [In]. intros Hf HP HV. unfold reads_back.
  repeat (destruct Hf as [<-|Hf]); try contradiction; cbn [sets In] in HP;
    repeat (destruct HP as [<-|HP]); try contradiction; cbn in HV; ucons; cbnG;
    try (rewrite from_precision_fin by exact HV; cbnG); finish; try reflexivity; 
    rewrite precision_readback by exact HV; reflexivity.
Qed.

Lemma rb_plain f P v :
  In f [Cauchy; ChiSquared; DiscreteUniform; DiscreteWeibull; ExGaussian; Geometric; Gumbel; HalfCauchy;
        Laplace; Logistic; LogLogistic; LogNormal; Moyal; Pareto; Poisson; Triangular; TruncatedNormal;
        Uniform; VonMises; Weibull; ZeroInflatedPoisson; BetaScaled; Kumaraswamy] ->
  In P (sets f) -> valid f P v -> reads_back ptd f P v.
Proof.
  cbn [In]. intros Hf HP HV. unfold reads_back.
  repeat (destruct Hf as [<-|Hf]); try contradiction; cbn [sets In] in HP;
    repeat (destruct HP as [<-|HP]); try contradiction; clear HV; ucons; cbnG;
    unfold pyand, kumaraswamy_update; try destruct (xeqb _ _); finish; reflexivity.
Qed.

Lemma np_int64_fin x : 0 <= x -> np_int64 (Some (Fin x)) = Ok (Fin (IZR (Int_part x))).
Proof. intro H. cbn. rewrite truncate_nonneg by exact H. reflexivity. Qed.

Lemma rb_int f P v :
  In f [BetaBinomial; Binomial; HyperGeometric; ZeroInflatedBinomial] ->
  In P (sets f) -> valid f P v -> reads_back ptd f P v.
Proof.
  cbn [In]. intros Hf HP HV. unfold reads_back.
  repeat (destruct Hf as [<-|Hf]); try contradiction; cbn [sets In] in HP;
    repeat (destruct HP as [<-|HP]); try contradiction; cbn in HV; ucons; cbnG;
    rewrite !np_int64_fin by tauto; cbnG; finish; reflexivity.
Qed.

Lemma rb_al P v : In P (sets AsymmetricLaplace) -> valid AsymmetricLaplace P v -> reads_back ptd AsymmetricLaplace P v.
Proof.
  cbn [sets In]. intros [<-|[<-|[]]] HV; cbn in HV; unfold reads_back; ucons; cbnG.
  - finish; reflexivity.
  - rewrite al_from_q_fin by apply HV. cbnG. finish; [|reflexivity].
    rewrite al_q_back by apply HV. reflexivity.
Qed.
Lemma rb_bernoulli P v : In P (sets Bernoulli) -> valid Bernoulli P v -> reads_back ptd Bernoulli P v.
Proof.
  cbn [sets In]. intros [<-|[<-|[]]] HV; cbn in HV; unfold reads_back; ucons; cbnG.
  - finish; reflexivity.
  - finish; [|rewrite expit_fin; reflexivity]. rewrite logit_expit. reflexivity.
Qed.
Lemma rb_beta P v : In P (sets Beta) -> valid Beta P v -> reads_back ptd Beta P v.
Proof.
  cbn [sets In]. intros [<-|[<-|[<-|[]]]] HV; cbn -[pow] in HV; unfold reads_back; ucons; cbnG.
  - unfold beta_update. rewrite beta_to_mu_sigma_fin by apply HV. cbnG. finish. reflexivity.
  - destruct HV as [Hm [Hs Hv]]. rewrite beta_from_mu_sigma_fin by exact Hs. cbnG.
    destruct (beta_sigma_back (v "mu") (v "sigma") Hm Hs Hv) as [Hnu Hb].
    set (nu := v "mu" * (1 - v "mu") / v "sigma" ^ 2 - 1) in *.
    assert (0 < v "mu" * nu) by (apply Rmult_lt_0_compat; lra).
    assert (0 < (1 - v "mu") * nu) by (apply Rmult_lt_0_compat; lra).
    unfold beta_update. rewrite beta_to_mu_sigma_fin by auto. cbnG. finish; try reflexivity.
    rewrite Hb, beta_mu_back by lra. reflexivity.
  - destruct HV as [Hm Hn]. unfold beta_from_mu_nu. rewrite xsub_fin, !xmul_fin.
    assert (0 < v "mu" * v "nu") by (apply Rmult_lt_0_compat; lra).
    assert (0 < (1 - v "mu") * v "nu") by (apply Rmult_lt_0_compat; lra).
    unfold beta_update. rewrite beta_to_mu_sigma_fin by auto. rewrite beta_nu_x by auto. cbnG.
    finish; try reflexivity. rewrite beta_mu_back by lra. repeat f_equal. ring.
Qed.
Lemma rb_exponential P v : In P (sets Exponential) -> valid Exponential P v -> reads_back ptd Exponential P v.
Proof.
  cbn [sets In]. intros [<-|[<-|[]]] HV; cbn in HV; unfold reads_back; ucons; cbnG.
  - finish; reflexivity.
  - rewrite pydiv_fin by lra. cbnG. unfold exponential_update.
    assert (0 < 1 / v "scale") by (apply Rdiv_lt_0_compat; lra).
    rewrite xdiv_fin by lra. finish; do 2 f_equal; try (f_equal; f_equal); field; lra.
Qed.
Lemma rb_gamma P v : In P (sets Gamma) -> valid Gamma P v -> reads_back ptd Gamma P v.
Proof.
  cbn [sets In]. intros [<-|[<-|[]]] HV; cbn in HV; unfold reads_back; ucons; cbnG.
  - unfold gamma_update. rewrite gamma_to_mu_sigma_fin by lra. finish; reflexivity.
  - rewrite gamma_from_mu_sigma_fin by apply HV. cbnG. destruct HV as [Hm Hs].
    assert (0 < v "sigma" ^ 2) by (apply pow_lt; lra). assert (0 < v "mu" ^ 2) by (apply pow_lt; lra).
    assert (0 < v "mu" / v "sigma" ^ 2) by (apply Rdiv_lt_0_compat; lra).
    assert (0 < v "mu" ^ 2 / v "sigma" ^ 2) by (apply Rdiv_lt_0_compat; lra).
    unfold gamma_update. rewrite gamma_to_mu_sigma_fin by lra. rewrite sqrt_ratio by lra. finish.
    + do 3 f_equal; [field; lra|]. do 3 f_equal. field; lra.
    + do 2 f_equal. field; lra.
    + reflexivity.
Qed.
Lemma rb_inversegamma P v : In P (sets InverseGamma) -> valid InverseGamma P v -> reads_back ptd InverseGamma P v.
Proof.
  cbn [sets In]. intros [<-|[<-|[]]] HV; cbn in HV; unfold reads_back; ucons; cbnG.
  - finish; reflexivity.
  - destruct HV as [Hm Hs]. rewrite ptd_ok, ig_from_mu_sigma_fin by exact Hs. cbnG.
    assert (0 < v "sigma" ^ 2) by (apply pow_lt; lra). assert (0 < v "mu" ^ 2) by (apply pow_lt; lra).
    assert (0 < v "mu" ^ 2 / v "sigma" ^ 2) by (apply Rdiv_lt_0_compat; lra).
    unfold inversegamma_update. rewrite ig_to_mu_fin, ig_to_sigma_fin by lra.
    replace (v "mu" ^ 2 / v "sigma" ^ 2 + 2 - 2) with (v "mu" ^ 2 / v "sigma" ^ 2) by ring.
    rewrite sqrt_ratio by lra. finish.
    + assert (A : v "mu" ^ 2 + v "sigma" ^ 2 <> 0) by nra.
      do 3 f_equal; [|do 3 f_equal]; field; conds; nra.
    + do 2 f_equal. field; lra.
    + do 2 f_equal. field; lra.
Qed.
Lemma nb_back n p : 0 < p < 1 -> 0 < n -> n / (n * (1 / p - 1) + n) = p.
Proof. intros Hp Hn. replace (n * (1 / p - 1) + n) with (n / p) by (field; lra). field; conds. Qed.
Lemma nb_mu_pos n p : 0 < p < 1 -> 0 < n -> 0 < n * (1 / p - 1).
Proof.
  intros Hp Hn. apply Rmult_lt_0_compat; [lra|]. apply Rlt_Rminus. apply Rmult_lt_reg_r with p; [lra|].
  unfold Rdiv. rewrite Rmult_assoc, Rinv_l by lra. lra.
Qed.
Lemma rb_nb P v : In P (sets NegativeBinomial) -> valid NegativeBinomial P v -> reads_back ptd NegativeBinomial P v.
Proof.
  cbn [sets In]. intros [<-|[<-|[]]] HV; cbn in HV; unfold reads_back; ucons; cbnG.
  - finish; reflexivity.
  - destruct HV as [Hp Hn]. unfold nb_from_n_p. rewrite pydiv_fin by lra. cbnG.
    rewrite xsub_fin, xmul_fin. pose proof (nb_mu_pos _ _ Hp Hn). unfold nb_update, nb_to_p.
    rewrite xadd_fin, xdiv_fin by lra. finish; try reflexivity.
    + rewrite nb_back by auto. reflexivity.
    + do 2 f_equal. field; lra.
Qed.
Lemma rb_zinb P v : In P (sets ZeroInflatedNegativeBinomial) -> valid ZeroInflatedNegativeBinomial P v ->
  reads_back ptd ZeroInflatedNegativeBinomial P v.
Proof.
  cbn [sets In]. intros [<-|[<-|[]]] HV; cbn in HV; unfold reads_back; ucons; cbnG.
  - finish; reflexivity.
  - destruct HV as [Hp Hn]. unfold zinb_from_p_n. rewrite pydiv_fin by lra. cbnG.
    rewrite xsub_fin, xmul_fin. pose proof (nb_mu_pos _ _ Hp Hn). unfold zinb_update.
    rewrite xadd_fin, xdiv_fin by lra. finish; try reflexivity.
    + rewrite nb_back by auto. reflexivity.
    + do 2 f_equal. field; lra.
Qed.
Lemma rb_rice P v : In P (sets Rice) -> valid Rice P v -> reads_back ptd Rice P v.
Proof.
  cbn [sets In]. intros [<-|[<-|[]]] HV; cbn in HV; unfold reads_back; ucons; cbnG.
  - finish; reflexivity.
  - unfold rice_update. rewrite xmul_fin, xdiv_fin by lra. finish; try reflexivity.
    do 3 f_equal. field; lra.
Qed.
Lemma xeqb_zero x : 0 < x -> xeqb (Fin x) (Fin 0) = false.
Proof. intro H. cbn. apply Reqb_false. lra. Qed.
Lemma rb_wald P v : In P (sets Wald) -> valid Wald P v -> reads_back ptd Wald P v.
Proof.
  cbn [sets In]. intros [<-|[<-|[<-|[]]]] HV; cbn in HV; unfold reads_back; ucons; cbnG.
  - finish; reflexivity.
  - rewrite xeqb_zero by lra. unfold wald_update. rewrite xmul_fin. cbnG. rewrite xdiv_fin by lra.
    finish; try reflexivity. do 5 f_equal. field; lra.
  - rewrite xeqb_zero by lra. rewrite pydiv_fin by lra. cbnG. unfold wald_update.
    assert (0 < v "lam" / v "phi") by (apply Rdiv_lt_0_compat; lra). rewrite xdiv_fin by lra.
    finish; try reflexivity. do 5 f_equal. field; lra.
Qed.

Lemma all_read_back f P v : In P (sets f) -> valid f P v -> reads_back ptd f P v.
Proof.
  intros HP HV. destruct f;
    first [ now apply rb_al | now apply rb_bernoulli | now apply rb_beta | now apply rb_exponential
          | now apply rb_gamma | now apply rb_inversegamma | now apply rb_nb | now apply rb_zinb
          | now apply rb_rice | now apply rb_wald
          | apply rb_precision; auto; cbn [In]; tauto
          | apply rb_plain; auto; cbn [In]; tauto
          | apply rb_int; auto; cbn [In]; tauto ].
Qed.
End RB.
