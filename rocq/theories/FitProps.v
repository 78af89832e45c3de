(** Property theorems for moment fitting: C11. *)
From Coq Require Import List Bool String Reals Lra Lia.
From Verif Require Import Base XR SpecialModel FamModel FamSpec FamArith FitModel FitSpec.
Import ListNotations.
Open Scope R_scope.
Open Scope string_scope.

Lemma pi_pos : 0 < PI. Proof. exact PI_RGT_0. Qed.
Lemma two_over_pi : 2 / PI < 1.
Proof. pose proof PI2_1. pose proof pi_pos. apply (Rmult_lt_reg_r PI); [lra|]. unfold Rdiv. rewrite Rmult_assoc, Rinv_l by lra. lra. Qed.

(** Finite arithmetic, from the inside out. *)
Ltac fin1 :=
  match goal with
  | |- context [xpow (Fin ?a) 2] => rewrite (xpow2_fin a)
  | |- context [xpow (Fin ?a) 3] => rewrite (xpow3_fin a)
  | |- context [xsub (Fin ?a) (Fin ?b)] => rewrite (xsub_fin a b)
  | |- context [xadd (Fin ?a) (Fin ?b)] => rewrite (xadd_fin a b)
  | |- context [xmul (Fin ?a) (Fin ?b)] => rewrite (xmul_fin a b)
  end.
Ltac fins := repeat fin1.
Ltac bnd := unfold bind; cbn [fst snd].

Lemma sqrt2_sq x : 0 <= x -> (sqrt x) ^ 2 = x. Proof. apply sqrt_pow2_eq. Qed.

(** What an update stores. *)
Ltac upd := repeat match goal with |- context [if ?c then setP _ _ else _] => destruct c end; cbn; auto.
Lemma al_upd d k m b : let d' := al_update d k m b in
  frozen d' = true /\ attr d' "kappa" = Some k /\ attr d' "mu" = Some m /\ attr d' "b" = Some b.
Proof. unfold al_update. upd. Qed.
Lemma bernoulli_upd d p : let d' := bernoulli_update d p in frozen d' = true /\ attr d' "p" = Some p.
Proof. unfold bernoulli_update. upd. Qed.
Lemma beta_upd d a b : let d' := beta_update d a b in
  frozen d' = true /\ attr d' "alpha" = Some a /\ attr d' "beta" = Some b.
Proof. unfold beta_update. destruct (beta_to_mu_sigma a b). upd. Qed.
Lemma exponential_upd d p : let d' := exponential_update d p in frozen d' = true /\ attr d' "lam" = Some p.
Proof. unfold exponential_update. upd. Qed.
Lemma gamma_upd d a b : let d' := gamma_update d a b in
  frozen d' = true /\ attr d' "alpha" = Some a /\ attr d' "beta" = Some b.
Proof. unfold gamma_update. destruct (gamma_to_mu_sigma a b). upd. Qed.
Lemma halfnormal_upd d p : let d' := halfnormal_update d p in frozen d' = true /\ attr d' "sigma" = Some p.
Proof. unfold halfnormal_update. upd. Qed.
Lemma halfstudentt_upd d n p : let d' := halfstudentt_update d n p in
  frozen d' = true /\ attr d' "nu" = Some n /\ attr d' "sigma" = Some p.
Proof. unfold halfstudentt_update. upd. Qed.
Lemma inversegamma_upd d a b : let d' := inversegamma_update d a b in
  frozen d' = true /\ attr d' "alpha" = Some a /\ attr d' "beta" = Some b.
Proof. unfold inversegamma_update. upd. Qed.
Lemma normal_upd d a b : let d' := normal_update d a b in
  frozen d' = true /\ attr d' "mu" = Some a /\ attr d' "sigma" = Some b.
Proof. unfold normal_update. upd. Qed.
Lemma logitnormal_upd d a b : let d' := logitnormal_update d a b in
  frozen d' = true /\ attr d' "mu" = Some a /\ attr d' "sigma" = Some b.
Proof. unfold logitnormal_update. upd. Qed.
Lemma studentt_upd d n a b : let d' := studentt_update d n a b in
  frozen d' = true /\ attr d' "nu" = Some n /\ attr d' "mu" = Some a /\ attr d' "sigma" = Some b.
Proof. unfold studentt_update. upd. Qed.
Lemma wald_upd d a b : let d' := wald_update d a b in
  frozen d' = true /\ attr d' "mu" = Some a /\ attr d' "lam" = Some b.
Proof. unfold wald_update. upd. Qed.

Section C11.
Variable eg : R.
Variable gam : R -> xr.
Variable opt : family -> dist -> R -> R -> res dist.
Let Gam (x : R) : R := match gam x with Fin r => r | _ => 0 end.
Let fit := fit_moments eg gam opt.

(** The result of the fit is complete and describes a proper distribution, and its canonical parameters are numbers. *)
Definition good_fit (f : family) (d : dist) (mean sigma : R) (claim : (string -> R) -> Prop) : Prop :=
  exists d', fit f d mean sigma = Ok d' /\ frozen d' = true /\
    (forall k, In k (canonical f) -> attr d' k = Some (Fin (fin_attr d' k))) /\
    proper f (fin_attr d') /\ claim (fin_attr d').

Definition both (f : family) (mean sigma : R) (p : string -> R) : Prop :=
  textbook_mean eg Gam f p = mean /\ textbook_var Gam f p = sigma ^ 2.


Ltac start_fit := unfold good_fit, fit; cbn [fit_moments].
(** Close a goal from the attributes stored by the update. *)
Ltac stored H :=
  destruct H as [?Hfr ?Hat]; eexists; split; [reflexivity|]; split; [exact Hfr|];
  repeat match goal with H : _ /\ _ |- _ => destruct H end; unfold fin_attr;
  split; [cbn [canonical hd sets In]; intros k Hk;
          repeat match goal with H : _ \/ _ |- _ => destruct H end; subst;
          try contradiction; repeat match goal with H : attr _ _ = _ |- _ => rewrite H end; reflexivity|];
  unfold both; cbn [textbook_mean textbook_var proper];
  repeat match goal with H : attr _ _ = _ |- _ => rewrite H; clear H end.
Ltac stored0 :=
  eexists; split; [reflexivity|]; split; [reflexivity|]; unfold fin_attr;
  split; [cbn [canonical hd sets In]; intros k Hk; repeat match goal with H : _ \/ _ |- _ => destruct H end; subst;
          try contradiction; cbn; reflexivity|];
  unfold both; cbn [textbook_mean textbook_var proper]; cbn -[pow sqrt exp ln PI Rinv Rdiv Rmult Rplus Rminus Rlt Rle].

Lemma fit_al d mean sigma : 0 < sigma -> good_fit AsymmetricLaplace d mean sigma (both AsymmetricLaplace mean sigma).
Proof.
  intros Hs. start_fit. unfold al_fit. rewrite pyhalf_fin by lra. bnd. fins.
  pose proof (sqrt_lt_R0 2 ltac:(lra)) as H2. pose proof (sqrt2_sq 2 ltac:(lra)) as H3.
  stored (al_upd d (Fin 1) (Fin mean) (Fin (sigma / 2 * sqrt 2))).
  split; [split; [lra|nra]|]. split; [field|].
  replace ((sigma / 2 * sqrt 2) ^ 2) with (sigma ^ 2 / 4 * (sqrt 2) ^ 2) by field. rewrite H3. field.
Qed.
Lemma pymax_right a b : a <= b -> pymax (Fin a) (Fin b) = Fin b.
Proof. intro H. unfold pymax. cbn. destruct (Rltb_spec a b); [reflexivity|]. f_equal. lra. Qed.
(** The moments of Beta(m nu, (1 - m) nu) with nu = m (1 - m) / s^2 - 1. *)
Lemma beta_moments m s : 0 < m < 1 -> 0 < s -> let nu := m * (1 - m) / s ^ 2 - 1 in 0 < nu ->
  m * nu / (m * nu + (1 - m) * nu) = m /\
  m * nu * ((1 - m) * nu) / ((m * nu + (1 - m) * nu) ^ 2 * (m * nu + (1 - m) * nu + 1)) = s ^ 2.
Proof.
  intros Hm Hs nu Hn. replace (m * nu + (1 - m) * nu) with nu by ring. split; [field; lra|].
  replace (nu + 1) with (m * (1 - m) / s ^ 2) by (unfold nu; ring). field. repeat split; try lra.
Qed.
Lemma beta_region_nu m s : beta_region m s -> 0 < m * (1 - m) / s ^ 2 - 1.
Proof. intros (Hm & Hs & Ha & Hb). nra. Qed.
Lemma fit_beta d mean sigma : beta_region mean sigma -> good_fit Beta d mean sigma (both Beta mean sigma).
Proof.
  intros HR. pose proof (beta_region_nu _ _ HR) as Hn. destruct HR as (Hm & Hs & Ha & Hb).
  start_fit. unfold beta_fit. rewrite beta_from_mu_sigma_fin by lra. bnd.
  cbv zeta. set (nu := mean * (1 - mean) / sigma ^ 2 - 1) in *. bnd. rewrite !pymax_right by lra.
  stored (beta_upd d (Fin (mean * nu)) (Fin ((1 - mean) * nu))).
  split; [lra|]. apply (beta_moments mean sigma); auto.
Qed.
Lemma fit_betascaled d mean sigma lo up : attr d "lower" = Some (Fin lo) -> attr d "upper" = Some (Fin up) ->
  lo < up -> beta_region ((mean - lo) / (up - lo)) (sigma / (up - lo)) ->
  good_fit BetaScaled d mean sigma (both BetaScaled mean sigma).
Proof.
  intros El Eu Hlu HR. pose proof (beta_region_nu _ _ HR) as Hn. destruct HR as (Hm & Hs & Ha & Hb).
  start_fit. unfold betascaled_fit. rewrite El, Eu. fins. rewrite !pydiv_fin by lra. bnd. fins.
  set (m := (mean - lo) / (up - lo)) in *. set (s := sigma / (up - lo)) in *.
  rewrite pydiv_fin by (pose proof (pow_lt s 2 Hs); lra). bnd. fins.
  set (nu := m * (1 - m) / s ^ 2 - 1) in *.
  rewrite (Rmult_comm nu m), (Rmult_comm nu (1 - m)), !pymax_right by lra.
  eexists. split; [reflexivity|]. split; [reflexivity|]. unfold fin_attr.
  split. { cbn [canonical hd sets In]. intros k Hk. repeat destruct Hk as [<-|Hk]; try contradiction; cbn; rewrite ?El, ?Eu; reflexivity. }
  unfold both. cbn [textbook_mean textbook_var proper]. cbn -[pow Rinv Rdiv Rmult Rplus Rminus]. rewrite El, Eu.
  split; [lra|]. destruct (beta_moments m s Hm Hs Hn) as [A B]. fold nu in A, B. rewrite A, B.
  split; [unfold m; field; lra|unfold s; field; lra].
Qed.
Lemma fit_gamma d mean sigma : 0 < mean -> 0 < sigma -> good_fit Gamma d mean sigma (both Gamma mean sigma).
Proof.
  intros Hm Hs. start_fit. unfold gamma_fit. rewrite gamma_from_mu_sigma_fin by lra. bnd.
  stored (gamma_upd d (Fin (mean ^ 2 / sigma ^ 2)) (Fin (mean / sigma ^ 2))).
  split; [split; apply Rdiv_lt_0_compat; try nra|]. split; field; lra.
Qed.
Lemma fit_gumbel d mean sigma : 0 < sigma -> good_fit Gumbel d mean sigma (both Gumbel mean sigma).
Proof.
  intros Hs. start_fit. unfold gumbel_fit. rewrite pyhalf_fin by lra. bnd. fins.
  pose proof (sqrt_lt_R0 6 ltac:(lra)) as H2. pose proof (sqrt2_sq 6 ltac:(lra)) as H3. pose proof pi_pos.
  stored0.
  split; [apply Rmult_lt_0_compat; [apply Rdiv_lt_0_compat|]; lra|]. split; [ring|].
  replace ((sigma / PI * sqrt 6) ^ 2) with (sigma ^ 2 / PI ^ 2 * (sqrt 6) ^ 2) by (field; lra). rewrite H3. field. lra.
Qed.
Lemma fit_inversegamma d mean sigma : 0 < mean -> 0 < sigma ->
  good_fit InverseGamma d mean sigma (both InverseGamma mean sigma).
Proof.
  intros Hm Hs. start_fit. unfold inversegamma_fit. fins. pose proof (pow_lt sigma 2 Hs). pose proof (pow_lt mean 2 Hm).
  pose proof (pow_lt mean 3 Hm). rewrite !pydiv_fin by lra. bnd. fins.
  stored (inversegamma_upd d (Fin (mean ^ 2 / sigma ^ 2 + 2)) (Fin (mean ^ 3 / sigma ^ 2 + mean))).
  assert (0 < mean ^ 2 / sigma ^ 2) by (apply Rdiv_lt_0_compat; lra).
  assert (0 < mean ^ 3 / sigma ^ 2) by (apply Rdiv_lt_0_compat; lra).
  split; [lra|]. split; field; repeat split; nra.
Qed.
Lemma fit_laplace d mean sigma : 0 < sigma -> good_fit Laplace d mean sigma (both Laplace mean sigma).
Proof.
  intros Hs. start_fit. unfold laplace_fit. rewrite pyhalf_fin by lra. bnd. fins.
  pose proof (sqrt_lt_R0 2 ltac:(lra)) as H2. pose proof (sqrt2_sq 2 ltac:(lra)) as H3.
  stored0. split; [nra|]. split; [reflexivity|].
  replace ((sigma / 2 * sqrt 2) ^ 2) with (sigma ^ 2 / 4 * (sqrt 2) ^ 2) by field. rewrite H3. field.
Qed.
Lemma fit_logistic d mean sigma : 0 < sigma -> good_fit Logistic d mean sigma (both Logistic mean sigma).
Proof.
  intros Hs. start_fit. unfold logistic_fit. fins. pose proof pi_pos. pose proof (pow_lt PI 2 ltac:(lra)). pose proof (pow_lt sigma 2 Hs).
  rewrite pydiv_fin by lra. bnd. assert (0 < 3 * sigma ^ 2 / PI ^ 2) by (apply Rdiv_lt_0_compat; lra).
  rewrite pyhalf_fin by lra. bnd. stored0. split; [apply sqrt_lt_R0; lra|]. split; [reflexivity|].
  rewrite sqrt2_sq by lra. field. lra.
Qed.
Lemma fit_lognormal d mean sigma : 0 < mean -> 0 < sigma -> good_fit LogNormal d mean sigma (both LogNormal mean sigma).
Proof.
  intros Hm Hs. start_fit. unfold lognormal_fit. fins. pose proof (pow_lt sigma 2 Hs). pose proof (pow_lt mean 2 Hm).
  rewrite pyhalf_fin by lra. bnd. pose proof (sqrt_lt_R0 (sigma ^ 2 + mean ^ 2) ltac:(lra)) as Hr.
  rewrite !pydiv_fin by lra. bnd. fins.
  assert (Hq : 0 < mean ^ 2 / sqrt (sigma ^ 2 + mean ^ 2)) by (apply Rdiv_lt_0_compat; lra).
  assert (Ht : 0 < sigma ^ 2 / mean ^ 2) by (apply Rdiv_lt_0_compat; lra).
  cbn [xlog]. rewrite !Rltb_true by lra.
  assert (Hl : 0 < ln (sigma ^ 2 / mean ^ 2 + 1)) by (rewrite <- ln_1; apply ln_increasing; lra).
  rewrite xhalf_fin by lra. stored0. split; [apply sqrt_lt_R0; lra|].
  rewrite sqrt2_sq by lra.
  assert (E1 : exp (ln (sigma ^ 2 / mean ^ 2 + 1)) = sigma ^ 2 / mean ^ 2 + 1) by (apply exp_ln; lra).
  assert (E2 : exp (ln (mean ^ 2 / sqrt (sigma ^ 2 + mean ^ 2))) = mean ^ 2 / sqrt (sigma ^ 2 + mean ^ 2)) by (apply exp_ln; lra).
  assert (E3 : exp (2 * ln (mean ^ 2 / sqrt (sigma ^ 2 + mean ^ 2)) + ln (sigma ^ 2 / mean ^ 2 + 1)) = mean ^ 2).
  { rewrite exp_plus, E1. replace (2 * ln (mean ^ 2 / sqrt (sigma ^ 2 + mean ^ 2)))
      with (ln (mean ^ 2 / sqrt (sigma ^ 2 + mean ^ 2)) + ln (mean ^ 2 / sqrt (sigma ^ 2 + mean ^ 2))) by ring.
    rewrite exp_plus, E2.
    replace (mean ^ 2 / sqrt (sigma ^ 2 + mean ^ 2) * (mean ^ 2 / sqrt (sigma ^ 2 + mean ^ 2)))
      with (mean ^ 4 / (sqrt (sigma ^ 2 + mean ^ 2)) ^ 2) by (field; lra).
    rewrite sqrt2_sq by lra. field. nra. }
  split.
  - set (x := exp _). assert (P : 0 < x) by apply exp_pos.
    assert (Q : x * x = mean ^ 2) by (unfold x; rewrite <- exp_plus; etransitivity; [|exact E3]; f_equal; field).
    nra.
  - rewrite E3, E1. field. lra.
Qed.
Lemma fit_moyal d mean sigma : 0 < sigma -> good_fit Moyal d mean sigma (both Moyal mean sigma).
Proof.
  intros Hs. start_fit. unfold moyal_fit. rewrite pyhalf_fin by lra. bnd. cbn [xlog]. rewrite Rltb_true by lra. fins.
  pose proof (sqrt_lt_R0 2 ltac:(lra)) as H2. pose proof (sqrt2_sq 2 ltac:(lra)) as H3. pose proof pi_pos.
  stored0.
  split; [apply Rmult_lt_0_compat; [apply Rdiv_lt_0_compat|]; lra|]. split; [ring|].
  replace ((sigma / PI * sqrt 2) ^ 2) with (sigma ^ 2 / PI ^ 2 * (sqrt 2) ^ 2) by (field; lra). rewrite H3. field. lra.
Qed.
Lemma fit_normal d mean sigma : 0 < sigma -> good_fit Normal d mean sigma (both Normal mean sigma).
Proof. intros Hs. start_fit. stored (normal_upd d (Fin mean) (Fin sigma)). auto. Qed.
Lemma fit_pareto d mean sigma : 0 < mean -> 0 < sigma -> good_fit Pareto d mean sigma (both Pareto mean sigma).
Proof.
  intros Hm Hs. start_fit. unfold pareto_fit. rewrite pydiv_fin by lra. bnd. fins.
  assert (Hq : 0 < mean / sigma) by (apply Rdiv_lt_0_compat; lra). pose proof (pow_lt _ 2 Hq).
  rewrite pyhalf_fin by lra. bnd. fins.
  assert (Hr : 1 < sqrt (1 + (mean / sigma) ^ 2)) by (rewrite <- sqrt_1 at 1; apply sqrt_lt_1; lra).
  pose proof (sqrt2_sq (1 + (mean / sigma) ^ 2) ltac:(lra)) as Hr2.
  set (r := sqrt (1 + (mean / sigma) ^ 2)) in *.
  rewrite pydiv_fin by lra. bnd. stored0.
  split; [split; [lra|apply Rdiv_lt_0_compat; [apply Rmult_lt_0_compat|]; lra]|].
  split; [field; lra|].
  assert (Es : sigma ^ 2 * (r ^ 2 - 1) = mean ^ 2) by (rewrite Hr2; field; lra).
  replace (((1 + r - 1) * mean / (1 + r)) ^ 2 * (1 + r) / ((1 + r - 1) ^ 2 * (1 + r - 2)))
    with (mean ^ 2 / (r ^ 2 - 1)) by (field; repeat split; nra).
  rewrite <- Es. field. nra.
Qed.
Lemma fit_triangular d mean sigma : 0 < sigma -> good_fit Triangular d mean sigma (both Triangular mean sigma).
Proof.
  intros Hs. start_fit. unfold triangular_fit. rewrite pyhalf_fin by lra. bnd. fins.
  pose proof (sqrt_lt_R0 6 ltac:(lra)) as H2. pose proof (sqrt2_sq 6 ltac:(lra)) as H3.
  stored0. split; [nra|]. split; [field|].
  replace ((mean + sqrt 6 * sigma) ^ 2 + (mean - sqrt 6 * sigma) ^ 2 + mean ^ 2 -
    (mean - sqrt 6 * sigma) * (mean + sqrt 6 * sigma) - (mean - sqrt 6 * sigma) * mean -
    (mean + sqrt 6 * sigma) * mean) with (3 * (sqrt 6) ^ 2 * sigma ^ 2) by ring.
  rewrite H3. field.
Qed.
Lemma fit_wald d mean sigma : 0 < mean -> 0 < sigma -> good_fit Wald d mean sigma (both Wald mean sigma).
Proof.
  intros Hm Hs. start_fit. unfold wald_fit. fins. pose proof (pow_lt sigma 2 Hs). pose proof (pow_lt mean 3 Hm).
  rewrite pydiv_fin by lra. bnd. stored (wald_upd d (Fin mean) (Fin (mean ^ 3 / sigma ^ 2))).
  split; [split; [lra|apply Rdiv_lt_0_compat; lra]|]. split; [reflexivity|]. field. lra.
Qed.

(** Both moments, for every attainable pair, whatever the earlier state of the instance. *)
Theorem C11_mean_and_sd : forall f d mean sigma,
  fits_both f ->
  (f = BetaScaled -> attr d "lower" = Some (Fin (fin_attr d "lower")) /\ attr d "upper" = Some (Fin (fin_attr d "upper"))) ->
  attainable f (fin_attr d "lower") (fin_attr d "upper") mean sigma ->
  good_fit f d mean sigma (fun p => textbook_mean eg Gam f p = mean /\ sqrt (textbook_var Gam f p) = sigma).
Proof.
  intros f d mean sigma Hf Hb Ha.
  assert (S : 0 < sigma /\ good_fit f d mean sigma (both f mean sigma)).
  { unfold fits_both in Hf. cbn [In] in Hf.
    repeat (destruct Hf as [<-|Hf]); try contradiction; cbn [attainable] in Ha.
    - split; [exact Ha|]. apply fit_al, Ha.
    - split; [apply Ha|]. apply fit_beta, Ha.
    - destruct (Hb eq_refl) as [E1 E2]. destruct Ha as [A B]. split.
      + destruct B as (_ & B & _). apply (Rmult_lt_compat_r (fin_attr d "upper" - fin_attr d "lower")) in B; [|lra].
        unfold Rdiv in B. rewrite Rmult_assoc, Rinv_l in B; lra.
      + exact (fit_betascaled d mean sigma _ _ E1 E2 A B).
    - split; [apply Ha|]. apply fit_gamma; apply Ha.
    - split; [exact Ha|]. apply fit_gumbel, Ha.
    - split; [apply Ha|]. apply fit_inversegamma; apply Ha.
    - split; [exact Ha|]. apply fit_laplace, Ha.
    - split; [exact Ha|]. apply fit_logistic, Ha.
    - split; [apply Ha|]. apply fit_lognormal; apply Ha.
    - split; [exact Ha|]. apply fit_moyal, Ha.
    - split; [exact Ha|]. apply fit_normal, Ha.
    - split; [apply Ha|]. apply fit_pareto; apply Ha.
    - split; [exact Ha|]. apply fit_triangular, Ha.
    - split; [apply Ha|]. apply fit_wald; apply Ha. }
  destruct S as [Hs (d' & A & B & C & D & E & F)]. exists d'. repeat split; auto.
  rewrite F. apply sqrt_uniq; [lra|ring].
Qed.

(** One-parameter families: the mean. *)
Theorem C11_mean : forall f d mean sigma lo up,
  fits_mean f -> attainable f lo up mean sigma ->
  good_fit f d mean sigma (fun p => textbook_mean eg Gam f p = mean).
Proof.
  intros f d mean sigma lo up Hf Ha. unfold fits_mean in Hf. cbn [In] in Hf.
  repeat (destruct Hf as [<-|Hf]); try contradiction; cbn [attainable] in Ha; start_fit.
  - stored (bernoulli_upd d (Fin mean)). auto.
  - stored0. auto.
  - unfold exponential_fit. rewrite pydiv_fin by lra. bnd. stored (exponential_upd d (Fin (1 / mean))).
    split; [apply Rdiv_lt_0_compat; lra|]. field. lra.
  - unfold geometric_fit. rewrite pydiv_fin by lra. bnd. stored0. split; [split; [apply Rdiv_lt_0_compat; lra|]|].
    + apply (Rmult_le_reg_r mean); [lra|]. unfold Rdiv. rewrite Rmult_assoc, Rinv_l; lra.
    + field. lra.
  - stored0. auto.
Qed.

(** Half-normal: the standard deviation. *)
Theorem C11_halfnormal_sd : forall d mean sigma, 0 < sigma ->
  good_fit HalfNormal d mean sigma (fun p => sqrt (textbook_var Gam HalfNormal p) = sigma).
Proof.
  intros d mean sigma Hs. pose proof two_over_pi. start_fit. unfold halfnormal_fit.
  rewrite pyhalf_fin by lra. bnd. pose proof (sqrt_lt_R0 (1 - 2 / PI) ltac:(lra)) as Hr.
  pose proof (sqrt2_sq (1 - 2 / PI) ltac:(lra)) as Hr2. rewrite pydiv_fin by lra. bnd.
  stored (halfnormal_upd d (Fin (sigma / sqrt (1 - 2 / PI)))).
  split; [apply Rdiv_lt_0_compat; lra|]. apply sqrt_uniq; [lra|].
  rewrite <- Hr2 at 2. field. lra.
Qed.

(** Student's t with degrees of freedom above 2: mean and standard deviation, keeping the degrees of freedom. *)
Theorem C11_studentt : forall d nu mean sigma, attr d "nu" = Some (Fin nu) -> 2 < nu -> 0 < sigma ->
  good_fit StudentT d mean sigma (fun p => p "nu" = nu /\
    textbook_mean eg Gam StudentT p = mean /\ sqrt (textbook_var Gam StudentT p) = sigma).
Proof.
  intros d nu mean sigma En Hn Hs. start_fit. unfold studentt_fit, fit_nu. rewrite En.
  assert (El : xleb (Fin nu) (Fin 2) = false).
  { unfold xleb. cbn. rewrite Rltb_false, Reqb_false by lra. reflexivity. }
  rewrite El. fins. rewrite pydiv_fin by lra. bnd. assert (Hq : 0 < nu / (nu - 2)) by (apply Rdiv_lt_0_compat; lra).
  rewrite pyhalf_fin by lra. bnd. pose proof (sqrt_lt_R0 _ Hq) as Hr. pose proof (sqrt2_sq (nu / (nu - 2)) ltac:(lra)) as Hr2.
  rewrite pydiv_fin by lra. bnd.
  stored (studentt_upd d (Fin nu) (Fin mean) (Fin (sigma / sqrt (nu / (nu - 2))))).
  split; [split; [lra|apply Rdiv_lt_0_compat; lra]|]. split; [reflexivity|]. split; [reflexivity|].
  set (r := sqrt (nu / (nu - 2))) in *. clearbody r. apply sqrt_uniq; [lra|]. rewrite <- Hr2. field. lra.
Qed.

(** Half Student's t: the standard deviation, for the gamma function the code uses, as long as it does not overflow. *)
Theorem C11_halfstudentt : forall d nu mean sigma g0 g1, attr d "nu" = Some (Fin nu) -> 2 < nu -> 0 < sigma ->
  gam ((nu + 1) / 2) = Fin g0 -> gam (nu / 2) = Fin g1 -> 0 < g1 ->
  0 < nu / (nu - 2) - 4 * nu / (PI * (nu - 1) ^ 2) * (g0 / g1) ^ 2 ->
  good_fit HalfStudentT d mean sigma (fun p => p "nu" = nu /\ sqrt (textbook_var Gam HalfStudentT p) = sigma).
Proof.
  intros d nu mean sigma g0 g1 En Hn Hs E0 E1 Hg Hv. start_fit. unfold halfstudentt_fit, fit_nu. rewrite En.
  assert (El : xleb (Fin nu) (Fin 2) = false).
  { unfold xleb. cbn. rewrite Rltb_false, Reqb_false by lra. reflexivity. }
  rewrite El. fins. rewrite !xdiv_fin by lra. cbn [xgamma]. rewrite E0, E1. cbn [xisfinite andb].
  pose proof pi_pos. pose proof (pow_lt (nu - 1) 2 ltac:(lra)).
  assert (0 < PI * (nu - 1) ^ 2) by (apply Rmult_lt_0_compat; lra).
  rewrite !pydiv_fin by lra. bnd. fins. set (V := nu / (nu - 2) - _) in *.
  rewrite pydiv_fin by lra. bnd. pose proof (pow_lt sigma 2 Hs).
  assert (Hq : 0 < sigma ^ 2 / V) by (apply Rdiv_lt_0_compat; lra). rewrite pyhalf_fin by lra. bnd.
  stored (halfstudentt_upd d (Fin nu) (Fin (sqrt (sigma ^ 2 / V)))).
  split; [split; [lra|apply sqrt_lt_R0; lra]|]. split; [reflexivity|].
  unfold Gam. rewrite E0, E1. fold V. rewrite sqrt2_sq by lra. apply sqrt_uniq; [lra|]. field. lra.
Qed.

(** When the gamma function overflows (nu is large) the scale is that of the half-normal distribution, the limit, with
    the standard deviation asked for. *)
Theorem C11_halfstudentt_overflow : forall d nu mean sigma, attr d "nu" = Some (Fin nu) -> 2 < nu -> 0 < sigma ->
  gam ((nu + 1) / 2) = PInf \/ gam (nu / 2) = PInf ->
  good_fit HalfStudentT d mean sigma (fun p => p "nu" = nu /\ p "sigma" ^ 2 * (1 - 2 / PI) = sigma ^ 2).
Proof.
  intros d nu mean sigma En Hn Hs HG. start_fit. unfold halfstudentt_fit, fit_nu. rewrite En.
  assert (El : xleb (Fin nu) (Fin 2) = false).
  { unfold xleb. cbn. rewrite Rltb_false, Reqb_false by lra. reflexivity. }
  rewrite El. fins. rewrite !xdiv_fin by lra. cbn [xgamma].
  replace (xisfinite (gam ((nu + 1) / 2)) && xisfinite (gam (nu / 2)))%bool with false.
  2:{ destruct HG as [-> | ->]; [reflexivity|rewrite andb_false_r; reflexivity]. }
  assert (P : 0 < 1 - 2 / PI).
  { pose proof PI2_1. pose proof PI_RGT_0. apply Rlt_Rminus. apply Rmult_lt_reg_r with PI; [lra|]. unfold Rdiv. rewrite Rmult_assoc, Rinv_l by lra. lra. }
  pose proof (sqrt_lt_R0 _ P) as Q. rewrite pyhalf_fin by lra. bnd. rewrite pydiv_fin by lra. bnd.
  stored (halfstudentt_upd d (Fin nu) (Fin (sigma / sqrt (1 - 2 / PI)))).
  split; [split; [lra|apply Rdiv_lt_0_compat; lra]|]. split; [reflexivity|].
  unfold Rdiv at 1. rewrite Rpow_mult_distr, pow_inv, (sqrt2_sq (1 - 2 / PI)) by lra.
  rewrite Rmult_assoc, Rinv_l by lra. ring.
Qed.

(** LogitNormal: the median is the mean asked for, and the scale six times the standard deviation asked for. *)
Theorem C11_logitnormal : forall d mean sigma, 0 < mean < 1 -> 0 < sigma ->
  good_fit LogitNormal d mean sigma (fun p => 1 / (1 + exp (- p "mu")) = mean /\ p "sigma" = 6 * sigma).
Proof.
  intros d mean sigma Hm Hs. start_fit. unfold logitnormal_fit.
  assert (Q : 0 < mean / (1 - mean)) by (apply Rdiv_lt_0_compat; lra).
  assert (E : xlogit (Fin mean) = Fin (ln (mean / (1 - mean)))).
  { unfold xlogit. cbn [xeqb]. rewrite !Reqb_false by lra. cbn [xltb]. rewrite !Rltb_false by lra. cbn [orb]. cbn.
    rewrite Reqb_false by lra. cbn. unfold Rminus in Q |- *. rewrite Rltb_true by exact Q. reflexivity. }
  rewrite E. stored (logitnormal_upd d (Fin (ln (mean / (1 - mean)))) (Fin (mean + sigma * 3 - (mean - sigma * 3)))).
  split; [lra|]. split; [|lra]. rewrite exp_Ropp, exp_ln by exact Q. field. lra.
Qed.

(** Uniform: exact mean, standard deviation within 1e-5 relative. *)
Theorem C11_uniform : forall d mean sigma, 0 < sigma ->
  good_fit Uniform d mean sigma (fun p => textbook_mean eg Gam Uniform p = mean /\
    Rabs (sqrt (textbook_var Gam Uniform p) - sigma) <= sigma / 100000).
Proof.
  intros d mean sigma Hs. start_fit. unfold uniform_fit. stored0. split; [lra|]. split; [field|].
  set (x := (_ ^ 2) / 12). pose proof (sqrt_pos x) as P.
  assert (Q : (sqrt x) ^ 2 = x) by (apply sqrt2_sq; unfold x; nra).
  unfold x in *. clear x. set (r := sqrt _) in *.
  assert (A : r ^ 2 = sigma ^ 2 * (1.73205 ^ 2 / 3)) by (rewrite Q; field). clear Q. clearbody r.
  assert (L : sigma * (1 - / 100000) <= r) by nra. assert (U : r <= sigma * (1 + / 100000)) by nra.
  apply Rabs_le. lra.
Qed.

(** DiscreteUniform rounds the exact bounds outwards: the centre moves by less than 1/2, and the number of points is
    at least what the standard deviation needs and at most 2 more, so the standard deviation is never too small. *)
Theorem C11_discreteuniform : forall d mean sigma, 0 <= sigma ->
  good_fit DiscreteUniform d mean sigma (fun p =>
    Rabs (textbook_mean eg Gam DiscreteUniform p - mean) < 1 / 2 /\
    sqrt (12 * sigma ^ 2 + 1) <= p "upper" - p "lower" + 1 < sqrt (12 * sigma ^ 2 + 1) + 2 /\
    sigma <= sqrt (textbook_var Gam DiscreteUniform p)).
Proof.
  intros d mean sigma Hs. start_fit. unfold discreteuniform_fit. fins. pose proof (pow2_ge_0 sigma) as Hp.
  rewrite pyhalf_fin by lra. bnd. fins. assert (Hr : 1 <= sqrt (12 * sigma ^ 2 + 1)).
  { rewrite <- sqrt_1 at 1. apply sqrt_le_1; lra. }
  pose proof (sqrt2_sq (12 * sigma ^ 2 + 1) ltac:(lra)) as Hr2. set (r := sqrt (12 * sigma ^ 2 + 1)) in *.
  unfold discreteuniform_update. cbn [xfloor xceil]. clearbody r.
  set (lo := 1 / 2 * (2 * mean - r + 1)). set (up := 1 / 2 * (2 * mean + r - 1)).
  assert (F : Rfloor lo <= lo < Rfloor lo + 1) by (unfold Rfloor; pose proof (base_Int_part lo); lra).
  assert (C : up <= Rceil up < up + 1) by (unfold Rceil, Rfloor; pose proof (base_Int_part (- up)); lra).
  eexists. split; [reflexivity|]. split; [reflexivity|]. unfold fin_attr.
  split. { cbn [canonical hd sets In]. intros k Hk. repeat destruct Hk as [<-|Hk]; try contradiction; reflexivity. }
  cbn [textbook_mean textbook_var proper].
  cbn -[pow sqrt Rinv Rdiv Rmult Rplus Rminus Rlt Rle Rfloor Rceil Rabs].
  unfold lo, up in *. split; [lra|]. split; [apply Rabs_def1; lra|]. split; [lra|].
  apply Rsqr_incr_0_var; [|apply sqrt_pos]. rewrite Rsqr_sqrt.
  - unfold Rsqr. nra.
  - nra.
Qed.

(** Weibull: the mean is exact for every shape the approximation picks, for the gamma function the code uses. *)
Theorem C11_weibull_mean : forall d mean sigma g, 0 < mean -> garcia_alpha mean sigma <> 0 ->
  gam (1 + 1 / garcia_alpha mean sigma) = Fin g -> 0 < g ->
  exists d', fit Weibull d mean sigma = Ok d' /\ frozen d' = true /\ textbook_mean eg Gam Weibull (fin_attr d') = mean.
Proof.
  intros d mean sigma g Hm Ha Hg Hp. unfold fit. cbn [fit_moments]. unfold weibull_fit, garcia_approximation.
  set (a := garcia_alpha mean sigma) in *. rewrite Hg. eexists. split; [reflexivity|]. split; [reflexivity|].
  unfold fin_attr. cbn [textbook_mean]. cbn -[Rinv Rdiv Rmult Rplus]. unfold Gam. rewrite Hg. field. lra.
Qed.

(** Degrees of freedom that are not given, or at most 2, are replaced and sigma is not adjusted: the standard deviation
    is not the requested one. *)
Theorem C11_studentt_default_nu_refuted : forall d mean sigma, 0 < sigma ->
  attr d "nu" = None \/ (exists n, attr d "nu" = Some (Fin n) /\ n <= 2) ->
  exists d', fit StudentT d mean sigma = Ok d' /\
    (textbook_var Gam StudentT (fin_attr d') = 50 / 49 * sigma ^ 2 \/ textbook_var Gam StudentT (fin_attr d') = 21 * sigma ^ 2) /\
    sigma < sqrt (textbook_var Gam StudentT (fin_attr d')).
Proof.
  intros d mean sigma Hs H.
  assert (E : exists d' k, fit StudentT d mean sigma = Ok d' /\ textbook_var Gam StudentT (fin_attr d') = k * sigma ^ 2 /\
    (k = 50 / 49 \/ k = 21)).
  { unfold fit. cbn [fit_moments]. unfold studentt_fit, fit_nu. destruct H as [E|(n & E & Hn)]; rewrite E; bnd.
    - eexists _, (50 / 49). split; [reflexivity|]. destruct (studentt_upd d (Fin 100) (Fin mean) (Fin sigma)) as (_ & A & _ & B).
      cbn [textbook_var]. unfold fin_attr. rewrite A, B. split; [field|auto].
    - assert (L : xleb (Fin n) (Fin 2) = true).
      { unfold xleb. cbn. destruct (Rltb_spec n 2); [reflexivity|]. destruct (Reqb_spec n 2); [reflexivity|lra]. }
      rewrite L. eexists _, 21. split; [reflexivity|].
      destruct (studentt_upd d (Fin (21 / 10)) (Fin mean) (Fin sigma)) as (_ & A & _ & B).
      cbn [textbook_var]. unfold fin_attr. rewrite A, B. split; [field|auto]. }
  destruct E as (d' & k & E1 & E2 & Hk). exists d'. split; [exact E1|]. rewrite E2. split; [destruct Hk as [->| ->]; auto|].
  apply Rsqr_incrst_0; [|lra|apply sqrt_pos]. pose proof (pow_lt sigma 2 Hs).
  rewrite Rsqr_sqrt by (destruct Hk as [->| ->]; lra). unfold Rsqr. destruct Hk as [->| ->]; nra.
Qed.

(** Beta parameters below 1/2 are clamped: an attainable mean is missed. *)
Theorem C11_beta_clamp_refuted : exists mean sigma a b, 0 < a /\ 0 < b /\
  a / (a + b) = mean /\ a * b / ((a + b) ^ 2 * (a + b + 1)) = sigma ^ 2 /\ 0 < sigma /\
  forall d, exists d', fit Beta d mean sigma = Ok d' /\ textbook_mean eg Gam Beta (fin_attr d') <> mean.
Proof.
  exists (1 / 10), (sqrt (45 / 1000)), (1 / 10), (9 / 10).
  pose proof (sqrt_lt_R0 (45 / 1000) ltac:(lra)) as P. pose proof (sqrt2_sq (45 / 1000) ltac:(lra)) as Q.
  split; [lra|]. split; [lra|]. split; [field|]. split; [rewrite Q; field|]. split; [exact P|].
  intros d. unfold fit. cbn [fit_moments]. unfold beta_fit. rewrite beta_from_mu_sigma_fin by lra. bnd. cbv zeta. rewrite Q. bnd.
  replace (1 / 10 * (1 / 10 * (1 - 1 / 10) / (45 / 1000) - 1)) with (1 / 10) by field.
  replace ((1 - 1 / 10) * (1 / 10 * (1 - 1 / 10) / (45 / 1000) - 1)) with (9 / 10) by field.
  rewrite (pymax_right (1 / 2) (9 / 10)) by lra.
  replace (pymax (Fin (1 / 2)) (Fin (1 / 10))) with (Fin (1 / 2)) by (unfold pymax; cbn; rewrite Rltb_false by lra; reflexivity).
  eexists. split; [reflexivity|]. destruct (beta_upd d (Fin (1 / 2)) (Fin (9 / 10))) as (_ & A & B).
  cbn [textbook_mean]. unfold fin_attr. rewrite A, B. lra.
Qed.

(** ExGaussian: the mean is off by nu = 1e-4. *)
Theorem C11_exgaussian_mean_refuted : forall d mean sigma,
  exists d', fit ExGaussian d mean sigma = Ok d' /\ textbook_mean eg Gam ExGaussian (fin_attr d') = mean + 1 / 10000.
Proof. intros. unfold fit. cbn [fit_moments]. eexists. split; [reflexivity|]. reflexivity. Qed.

(** AsymmetricLaplace: with the variance formula of its docstring, (1 + kappa^4) / (b^2 kappa^2), the fit is right for
    one standard deviation only. *)
Theorem C11_asymmetric_laplace_documented_refuted : forall d mean sigma, 0 < sigma -> sigma ^ 2 <> 2 ->
  exists d', fit AsymmetricLaplace d mean sigma = Ok d' /\
    (1 + fin_attr d' "kappa" ^ 4) / (fin_attr d' "b" ^ 2 * fin_attr d' "kappa" ^ 2) <> sigma ^ 2.
Proof.
  intros d mean sigma Hs Hn. unfold fit. cbn [fit_moments]. unfold al_fit. rewrite pyhalf_fin by lra. bnd. fins.
  pose proof (sqrt_lt_R0 2 ltac:(lra)) as H2. pose proof (sqrt2_sq 2 ltac:(lra)) as H3.
  eexists. split; [reflexivity|]. destruct (al_upd d (Fin 1) (Fin mean) (Fin (sigma / 2 * sqrt 2))) as (_ & A & _ & B).
  unfold fin_attr. rewrite A, B.
  replace ((sigma / 2 * sqrt 2) ^ 2) with (sigma ^ 2 / 4 * (sqrt 2) ^ 2) by field. rewrite H3.
  pose proof (pow_lt sigma 2 Hs) as P. intro E.
  assert (E2 : 4 = (sigma ^ 2) * (sigma ^ 2)).
  { rewrite <- E at 1. field. lra. }
  nra.
Qed.
End C11.

(* ------------------------------------------------------------- modifiers *)
Lemma lookup_none l k : ~ In k (map fst l) -> lookup l k = None.
Proof.
  induction l as [|[k' v] l IH]; cbn; intro H; [reflexivity|].
  destruct (String.eqb_spec k k'); [subst; tauto|]. apply IH. tauto.
Qed.
Lemma map_fst_combine {A B} (l : list A) (m : list B) x : In x (map fst (combine l m)) -> In x l.
Proof. revert m. induction l; destruct m; cbn; intros H; auto; try contradiction. destruct H; eauto. Qed.
Lemma filter_all_own (m : modifier) (l : list (string * option xr)) :
  (forall k, In k (own_names m) -> ~ In k (map fst l)) ->
  filter (fun kv => negb (existsb (String.eqb (fst kv)) (own_names m))) l = l.
Proof.
  induction l as [|[k v] l IH]; intro H; [reflexivity|]. cbn [filter fst].
  destruct (existsb (String.eqb k) (own_names m)) eqn:E; cbn [negb].
  - exfalso. apply existsb_exists in E. destruct E as (k' & Hk & E). apply String.eqb_eq in E. subst k'.
    apply (H k Hk). cbn. auto.
  - rewrite IH; [reflexivity|]. intros k' Hk' Hin. apply (H k' Hk'). cbn. auto.
Qed.

(** Fitting a truncated, censored or hurdle instance forgets its bounds (its psi): whatever they were, afterwards the
    bounds are infinite (psi is unset). *)
Theorem C11_modifier_forgets_its_parameters : forall m fit reparam w mean sigma w',
  (forall d, fit (w_base w) mean sigma = Ok d -> forall k, In k (own_names m) -> ~ In k (names d)) ->
  wrap_fit m fit reparam w mean sigma = Ok w' ->
  match m with
  | Trunc => w_extra w' = [("lower", Some NInf); ("upper", Some PInf)]
  | Cens => (fst (supp (w_base w')) <> NaN -> snd (supp (w_base w')) <> NaN ->
             w_extra w' = [("lower", Some (fst (supp (w_base w')))); ("upper", Some (snd (supp (w_base w'))))])
  | Hurd => w_extra w' = [("psi", None)]
  end.
Proof.
  intros m fit reparam w mean sigma w' Hn H. unfold wrap_fit in H.
  destruct (fit (w_base w) mean sigma) as [d|e] eqn:E; [|discriminate]. cbn [bind] in H.
  specialize (Hn d eq_refl). unfold wrap_param in H.
  set (kw := combine (names d) (params d)) in H.
  assert (K : forall k, In k (own_names m) -> ~ In k (map fst kw)).
  { intros k Hk Hin. apply (Hn k Hk). eapply map_fst_combine, Hin. }
  rewrite filter_all_own in H by exact K.
  assert (L : forall k, In k (own_names m) -> lookup kw k = None) by (intros; apply lookup_none; auto).
  set (rest := match kw with [] => _ | _ => kw end) in H. clearbody rest. clear K.
  destruct (all_not_none (map snd rest)).
  - destruct (reparam d _) as [d'|e]; [|discriminate]. cbn [bind] in H.
    destruct m; cbn [own_names] in L; rewrite ?(L "lower"), ?(L "upper"), ?(L "psi") in H by (cbn; tauto);
      injection H as <-; cbn; try reflexivity.
    intros A B. unfold w_max, w_min. destruct (supp d') as [a b]. cbn in *.
    destruct a, b; cbn; try congruence; reflexivity.
  - cbn [bind] in H.
    destruct m; cbn [own_names] in L; rewrite ?(L "lower"), ?(L "upper"), ?(L "psi") in H by (cbn; tauto);
      injection H as <-; cbn; try reflexivity.
    intros A B. unfold w_max, w_min. destruct (supp d) as [a b]. cbn in *.
    destruct a, b; cbn; try congruence; reflexivity.
Qed.
Definition fit0 := fit_moments 0 (fun _ => NaN) (fun _ _ _ _ => Err ValueError) Normal.
Definition normal0 : dist := {| names := ["mu"; "sigma"]; params := []; attr := fun _ => None; supp := (NInf, PInf); frozen := false |}.
Definition reparam0 (d : dist) (a : args) := construct ig_from_mu_sigma Normal a.
(** Truncated(Normal(), 0, 5) fitted to mean 1 and sd 2 has its bounds removed. *)
Theorem C11_truncated_bounds_lost_refuted : exists w w',
  wrap_param Trunc reparam0 false normal0 [("lower", Some (Fin 0)); ("upper", Some (Fin 5))] = Ok w /\
  w_supp w = (Fin 0, Fin 5) /\ wrap_fit Trunc fit0 reparam0 w 1 2 = Ok w' /\ w_supp w' = (NInf, PInf).
Proof.
  eexists. eexists. split; [cbn; reflexivity|]. split; [reflexivity|]. split; [cbn; reflexivity|]. reflexivity.
Qed.

Lemma lookup_app l r k : ~ In k (map fst l) -> lookup (l ++ r) k = lookup r k.
Proof.
  induction l as [|[k' v] l IH]; intro H; [reflexivity|]. cbn [app lookup].
  destruct (String.eqb k k') eqn:E; [apply String.eqb_eq in E; subst; exfalso; apply H; left; reflexivity|].
  apply IH. intro K. apply H. right. exact K.
Qed.
Lemma fst_combine {A B} (l : list A) (m : list B) : List.length l = List.length m -> map fst (combine l m) = l.
Proof. revert m. induction l as [|x l IH]; intros [|y m] H; try discriminate; [reflexivity|]. cbn. rewrite IH; [reflexivity|cbn in H; congruence]. Qed.
Lemma snd_combine {A B} (l : list A) (m : list B) : List.length l = List.length m -> map snd (combine l m) = m.
Proof. revert m. induction l as [|x l IH]; intros [|y m] H; try discriminate; [reflexivity|]. cbn. rewrite IH; [reflexivity|cbn in H; congruence]. Qed.
Lemma lookup_combine ns (vs : list xr) : NoDup ns -> List.length ns = List.length vs ->
  forall k v, In (k, v) (combine ns vs) -> lookup (combine ns (map Some vs)) k = Some (Some v).
Proof.
  revert vs. induction ns as [|n ns IH]; intros [|x vs] ND L k v H; try discriminate; [destruct H|].
  inversion ND as [|? ? NI ND']; subst. cbn [combine map lookup] in *. destruct H as [E|H].
  - injection E as -> ->. rewrite String.eqb_refl. reflexivity.
  - destruct (String.eqb k n) eqn:E; [apply String.eqb_eq in E; subst; exfalso; apply NI; eapply in_combine_l, H|].
    apply IH; auto.
Qed.
Lemma xleb_le a b : xleb (Fin a) (Fin b) = true <-> a <= b.
Proof.
  unfold xleb. cbn. destruct (Rltb_spec a b); cbn; [intuition lra|].
  destruct (Reqb_spec a b); split; intro; try lra; try discriminate; reflexivity.
Qed.
Lemma w_max_le a b x : a <> NaN -> b <> NaN -> xleb (w_max a b) x = true <-> xleb a x = true /\ xleb b x = true.
Proof.
  intros A B. unfold w_max. destruct a as [a| | |], b as [b| | |], x as [x| | |]; cbn; try congruence; try tauto;
    try (destruct (Rltb_spec a b)); cbn -[xleb];
    intuition (try discriminate; try reflexivity; try (apply xleb_le; match goal with H : xleb _ _ = true |- _ => apply xleb_le in H end; lra)).
Qed.
Lemma w_min_ge a b x : a <> NaN -> b <> NaN -> xleb x (w_min a b) = true <-> xleb x a = true /\ xleb x b = true.
Proof.
  intros A B. unfold w_min. destruct a as [a| | |], b as [b| | |], x as [x| | |]; cbn; try congruence; try tauto;
    try (destruct (Rltb_spec b a)); cbn -[xleb];
    intuition (try discriminate; try reflexivity; try (apply xleb_le; match goal with H : xleb _ _ = true |- _ => apply xleb_le in H end; lra)).
Qed.
(** A modifier given all the parameters of its base and its own: it is defined, its parameters are those of the base
    followed by its own, the base gets the values under their names, and the support is the part of the base's between
    the bounds (the base's own for Hurdle). *)
Theorem C11_modifier_defined : forall m reparam was d vals own w,
  NoDup (names d) -> (forall k, In k (own_names m) -> ~ In k (names d)) ->
  List.length (names d) = List.length vals -> vals <> [] -> List.length own = List.length (own_names m) ->
  wrap_param m reparam was d (combine (names d) (map Some vals) ++ combine (own_names m) (map Some own)) = Ok w ->
  w_frozen w = true /\ w_names w = (names d ++ own_names m)%list /\ w_params w = (map Some vals ++ map Some own)%list /\
  (exists a, reparam d a = Ok (w_base w) /\ forall k v, In (k, v) (combine (names d) vals) -> a k = Some v) /\
  match m, own with
  | Hurd, _ => w_supp w = supp (w_base w)
  | _, [lower; upper] => lower <> NaN -> upper <> NaN -> fst (supp (w_base w)) <> NaN -> snd (supp (w_base w)) <> NaN ->
      forall x, (xleb (fst (w_supp w)) x = true /\ xleb x (snd (w_supp w)) = true) <->
                (xleb (fst (supp (w_base w))) x = true /\ xleb x (snd (supp (w_base w))) = true /\ xleb lower x = true /\ xleb x upper = true)
  | _, _ => False
  end.
Proof.
  intros m reparam was d vals own w ND HO HL HV HW H. unfold wrap_param in H.
  assert (HL' : List.length (names d) = List.length (map Some vals)) by (rewrite map_length; exact HL).
  assert (F : filter (fun kv => negb (existsb (String.eqb (fst kv)) (own_names m)))
                (combine (names d) (map Some vals) ++ combine (own_names m) (map Some own)) = combine (names d) (map Some vals)).
  { rewrite filter_app, filter_all_own; [|intros k Hk K; apply (HO k Hk); rewrite fst_combine in K by exact HL'; exact K].
    rewrite <- (app_nil_r (combine (names d) (map Some vals))) at 2. f_equal.
    assert (Q : forall l : list (string * option xr), (forall k, In k (map fst l) -> In k (own_names m)) ->
              filter (fun kv => negb (existsb (String.eqb (fst kv)) (own_names m))) l = []).
    { induction l as [|[k v] l IH]; intro K; [reflexivity|]. cbn [filter fst].
      replace (existsb (String.eqb k) (own_names m)) with true.
      - cbn [negb]. apply IH. intros k' Hk. apply K. right. exact Hk.
      - symmetry. apply existsb_exists. exists k. split; [apply K; left; reflexivity|apply String.eqb_refl]. }
    apply Q. intros k Hk. rewrite fst_combine in Hk by (rewrite map_length; symmetry; exact HW). exact Hk. }
  rewrite F in H. clear F.
  assert (OWN : forall k, In k (own_names m) -> lookup (combine (names d) (map Some vals) ++ combine (own_names m) (map Some own)) k
                 = lookup (combine (own_names m) (map Some own)) k).
  { intros k Hk. apply lookup_app. rewrite fst_combine by exact HL'. apply HO, Hk. }
  set (kw := (combine (names d) (map Some vals) ++ _)%list) in *. clearbody kw.
  remember (combine (names d) (map Some vals)) as base eqn:EB.
  assert (NB : match base with [] => match params d with [] => map (fun n => (n, None)) (names d) | _ :: _ => combine (names d) (params d) end
               | _ :: _ => base end = base).
  { destruct base; [|reflexivity]. destruct vals; [congruence|]. destruct (names d); [discriminate HL|discriminate EB]. }
  replace (match base with [] => match params d with [] => map (fun n => (n, None)) (names d) | o :: l => combine (names d) (o :: l) end
               | _ :: _ => base end) with base in H.
  2:{ rewrite <- NB at 1. destruct base; [|reflexivity]. destruct (params d); reflexivity. }
  assert (SN : map snd base = map Some vals) by (subst base; apply snd_combine; exact HL').
  rewrite SN in H.
  replace (all_not_none (map Some vals)) with true in H.
  2:{ symmetry. unfold all_not_none. clear. induction vals; [reflexivity|]. cbn. exact IHvals. }
  destruct (reparam d (fun k => flat (lookup base k))) as [d'|x] eqn:R; [|discriminate]. cbn [bind] in H.
  assert (A : exists a, reparam d a = Ok d' /\ forall k v, In (k, v) (combine (names d) vals) -> a k = Some v).
  { exists (fun k => flat (lookup base k)). split; [exact R|]. intros k v Hk. subst base.
    rewrite (lookup_combine (names d) vals ND HL k v Hk). reflexivity. }
  apply (f_equal (fun r => match r with Ok w => w | Err _ => w end)) in H. subst w.
  cbn [w_frozen w_names w_params w_base w_supp].
  destruct m; cbn [own_names List.length] in *.
  - destruct own as [|lo [|up [|? ?]]]; try discriminate HW. rewrite (OWN "lower"), (OWN "upper") by (cbn; tauto). cbn [combine map lookup flat].
    cbn [String.eqb Ascii.eqb Bool.eqb fst snd]. split; [reflexivity|]. split; [reflexivity|]. split; [reflexivity|]. split; [exact A|].
    intros N1 N2 N3 N4 x. rewrite w_max_le, w_min_ge by assumption. tauto.
  - destruct own as [|lo [|up [|? ?]]]; try discriminate HW. rewrite (OWN "lower"), (OWN "upper") by (cbn; tauto). cbn [combine map lookup flat].
    cbn [String.eqb Ascii.eqb Bool.eqb fst snd]. split; [reflexivity|]. split; [reflexivity|]. split; [reflexivity|]. split; [exact A|].
    intros N1 N2 N3 N4 x. rewrite w_max_le, w_min_ge by assumption. tauto.
  - destruct own as [|psi [|? ?]]; try discriminate HW. rewrite (OWN "psi") by (cbn; tauto). cbn [combine map lookup flat].
    cbn [String.eqb Ascii.eqb Bool.eqb fst snd]. split; [reflexivity|]. split; [reflexivity|]. split; [reflexivity|]. split; [exact A|]. reflexivity.
Qed.
(** Truncated(Normal(1, 2), 0, 5). *)
Example C11_modifier_defined_applies : exists w,
  wrap_param Trunc reparam0 false normal0 (combine (names normal0) (map Some [Fin 1; Fin 2]) ++ combine (own_names Trunc) (map Some [Fin 0; Fin 5])) = Ok w /\
  w_supp w = (Fin 0, Fin 5).
Proof. eexists. split; [cbn; reflexivity|]. reflexivity. Qed.

(* ------------------------------------------------------------- instances *)
Example C11_both_applies : exists d, fits_both Pareto /\ attainable Pareto (fin_attr d "lower") (fin_attr d "upper") 3 (1 / 2)
  /\ construct ig_from_mu_sigma Pareto (fun _ => None) = Ok d.
Proof. eexists. split; [unfold fits_both; cbn; tauto|]. split; [|reflexivity]. cbn. lra. Qed.
Example C11_beta_applies : attainable Beta 0 1 (1 / 2) (1 / 10) /\ attainable BetaScaled 0 10 5 1.
Proof. cbn. unfold beta_region. lra. Qed.
Example C11_mean_applies : fits_mean Geometric /\ attainable Geometric 0 0 4 1.
Proof. split; [unfold fits_mean; cbn; tauto|cbn; lra]. Qed.

Print Assumptions C11_mean_and_sd.
Print Assumptions C11_mean.
Print Assumptions C11_halfnormal_sd.
Print Assumptions C11_studentt.
Print Assumptions C11_halfstudentt.
Print Assumptions C11_halfstudentt_overflow.
Print Assumptions C11_logitnormal.
Print Assumptions C11_uniform.
Print Assumptions C11_discreteuniform.
Print Assumptions C11_weibull_mean.
Print Assumptions C11_modifier_forgets_its_parameters.
Print Assumptions C11_modifier_defined.
