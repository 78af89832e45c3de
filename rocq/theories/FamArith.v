(** Arithmetic of the alternative parametrizations on finite values. *)
From Coq Require Import List Bool String Reals Lra Lia.
From Verif Require Import Base XR SpecialModel FamModel FamSpec.
Import ListNotations.
Open Scope R_scope.

Ltac conds := repeat match goal with |- _ /\ _ => split end; try lra.

Lemma pydiv_fin a b : b <> 0 -> pydiv (Fin a) (Fin b) = Ok (Fin (a / b)).
Proof. intro H. unfold pydiv, xdiv. rewrite Reqb_false by exact H. reflexivity. Qed.
Lemma xdiv_fin a b : b <> 0 -> xdiv (Fin a) (Fin b) = Fin (a / b).
Proof. intro H. unfold xdiv. rewrite Reqb_false by exact H. reflexivity. Qed.
Lemma xhalf_fin a : 0 <= a -> xhalf (Fin a) = Fin (sqrt a).
Proof. intro H. unfold xhalf. rewrite Rltb_false by exact H. reflexivity. Qed.
Lemma pyhalf_fin a : 0 <= a -> pyhalf (Fin a) = Ok (Fin (sqrt a)).
Proof. intro H. unfold pyhalf. rewrite Rltb_false by exact H. reflexivity. Qed.
Lemma xpow2_fin a : xpow (Fin a) 2 = Fin (a ^ 2).
Proof. simpl. reflexivity. Qed.
Lemma xpow3_fin a : xpow (Fin a) 3 = Fin (a ^ 3).
Proof. simpl. reflexivity. Qed.
Lemma xsub_fin a b : xsub (Fin a) (Fin b) = Fin (a - b).
Proof. reflexivity. Qed.
Lemma xadd_fin a b : xadd (Fin a) (Fin b) = Fin (a + b). Proof. reflexivity. Qed.
Lemma xmul_fin a b : xmul (Fin a) (Fin b) = Fin (a * b). Proof. reflexivity. Qed.

Lemma sqrt_pos_strict x : 0 < x -> 0 < sqrt x. Proof. apply sqrt_lt_R0. Qed.
Lemma sqrt_sq x : 0 <= x -> sqrt x * sqrt x = x. Proof. apply sqrt_sqrt. Qed.
Lemma sqrt_pow2_eq x : 0 <= x -> (sqrt x) ^ 2 = x.
Proof. intro H. simpl. rewrite Rmult_1_r. apply sqrt_sqrt, H. Qed.
Lemma sqrt_uniq a b : 0 <= b -> b * b = a -> sqrt a = b.
Proof. intros H E. rewrite <- E. apply sqrt_square, H. Qed.

(* ---- precision ---- *)
Lemma from_precision_fin t : 0 < t -> from_precision (Fin t) = Ok (Fin (/ sqrt t)).
Proof.
  intro H. unfold from_precision. rewrite pyhalf_fin by lra. cbn [bind].
  pose proof (sqrt_pos_strict t H). rewrite pydiv_fin by lra. do 2 f_equal. field; conds.
Qed.
Lemma to_precision_fin s : to_precision (Fin s) = Fin (1 / (eps + s ^ 2)).
Proof.
  unfold to_precision. rewrite xpow2_fin, xadd_fin. pose proof eps_pos. pose proof (pow2_ge_0 s).
  rewrite xdiv_fin by lra. reflexivity.
Qed.
Lemma precision_readback t : 0 < t -> to_precision (Fin (/ sqrt t)) = Fin (t / (1 + eps * t)).
Proof.
  intro H. rewrite to_precision_fin. f_equal. pose proof (sqrt_pos_strict t H). pose proof eps_pos.
  assert (E : (/ sqrt t) ^ 2 = / t).
  { rewrite <- (sqrt_pow2_eq t) at 2 by lra. field; conds. }
  assert (0 < eps * t) by (apply Rmult_lt_0_compat; lra).
  rewrite E. field; conds.
Qed.
Lemma precision_round s : from_precision (to_precision (Fin s)) = Ok (Fin (sqrt (eps + s ^ 2))).
Proof.
  rewrite to_precision_fin. pose proof eps_pos. pose proof (pow2_ge_0 s).
  assert (P : 0 < eps + s ^ 2) by lra.
  rewrite from_precision_fin by (apply Rdiv_lt_0_compat; lra). do 2 f_equal.
  unfold Rdiv. rewrite Rmult_1_l, sqrt_inv. apply Rinv_inv.
Qed.

(* ---- asymmetric Laplace ---- *)
Lemma al_from_q_fin q : 0 < q < 1 -> al_from_q (Fin q) = Ok (Fin (sqrt (q / (1 - q)))).
Proof.
  intro H. unfold al_from_q. rewrite xsub_fin, pydiv_fin by lra. cbn [bind].
  apply pyhalf_fin. apply Rlt_le, Rdiv_lt_0_compat; lra.
Qed.
Lemma al_to_q_fin k : al_to_q (Fin k) = Fin (k ^ 2 / (1 + k ^ 2)).
Proof. unfold al_to_q. rewrite xpow2_fin, xadd_fin. pose proof (pow2_ge_0 k). apply xdiv_fin. lra. Qed.
Lemma al_q_back q : 0 < q < 1 -> al_to_q (Fin (sqrt (q / (1 - q)))) = Fin q.
Proof.
  intro H. rewrite al_to_q_fin. f_equal.
  assert (P : 0 < q / (1 - q)) by (apply Rdiv_lt_0_compat; lra).
  rewrite sqrt_pow2_eq by lra. field; conds.
Qed.
Lemma al_kappa_back k : 0 < k -> al_from_q (al_to_q (Fin k)) = Ok (Fin k).
Proof.
  intro H. rewrite al_to_q_fin. pose proof (pow2_ge_0 k). assert (K : 0 < k ^ 2) by (apply pow_lt; lra).
  assert (0 < k ^ 2 / (1 + k ^ 2) < 1).
  { split; [apply Rdiv_lt_0_compat; lra|]. apply Rmult_lt_reg_r with (1 + k ^ 2); [lra|]. field_simplify; lra. }
  rewrite al_from_q_fin by lra. do 2 f_equal. apply sqrt_uniq; [lra|]. field; conds.
Qed.

(* ---- logit / expit ---- *)
Lemma expit_fin x : xexpit (Fin x) = Fin (/ (1 + exp (- x))).
Proof.
  unfold xexpit, xleb. cbn [xltb xeqb xneg xexp xadd].
  pose proof (exp_pos x). pose proof (exp_pos (- x)).
  destruct (Rltb 0 x || Reqb 0 x)%bool eqn:E.
  - rewrite xdiv_fin by lra. f_equal. field; conds.
  - rewrite xdiv_fin by lra. f_equal. rewrite exp_Ropp. field; conds.
Qed.
Lemma expit_range x : 0 < / (1 + exp (- x)) < 1.
Proof.
  pose proof (exp_pos (- x)). split; [apply Rinv_0_lt_compat; lra|].
  rewrite <- Rinv_1. apply Rinv_lt_contravar; lra.
Qed.
Lemma logit_fin p : 0 < p < 1 -> xlogit (Fin p) = Fin (ln (p / (1 - p))).
Proof.
  intro H. unfold xlogit. cbn [xeqb xltb]. rewrite !Reqb_false by lra. rewrite !Rltb_false by lra.
  cbn [orb]. rewrite xsub_fin, xdiv_fin by lra. unfold xlog.
  rewrite Rltb_true; [reflexivity|]. apply Rdiv_lt_0_compat; lra.
Qed.
Lemma logit_expit x : xlogit (xexpit (Fin x)) = Fin x.
Proof.
  rewrite expit_fin, logit_fin by apply expit_range. f_equal.
  pose proof (exp_pos (- x)). 
  replace (/ (1 + exp (- x)) / (1 - / (1 + exp (- x)))) with (/ exp (- x)) by (field; conds).
  rewrite <- exp_Ropp, Ropp_involutive. apply ln_exp.
Qed.
Lemma expit_logit p : 0 < p < 1 -> xexpit (xlogit (Fin p)) = Fin p.
Proof.
  intro H. rewrite logit_fin, expit_fin by exact H. f_equal.
  assert (P : 0 < p / (1 - p)) by (apply Rdiv_lt_0_compat; lra).
  rewrite exp_Ropp, exp_ln by exact P. field; conds.
Qed.

(* ---- Beta ---- *)
Lemma beta_to_mu_sigma_fin a b : 0 < a -> 0 < b ->
  beta_to_mu_sigma (Fin a) (Fin b) =
  (Fin (a / (a + b)), Fin (sqrt (a * b) / (a + b) / sqrt (a + b + 1))).
Proof.
  intros Ha Hb. unfold beta_to_mu_sigma. rewrite xadd_fin, xmul_fin, xadd_fin.
  assert (0 < a * b) by (apply Rmult_lt_0_compat; lra).
  rewrite !xhalf_fin by lra. pose proof (sqrt_pos_strict (a + b + 1) ltac:(lra)).
  rewrite !xdiv_fin by lra. reflexivity.
Qed.
Lemma beta_sigma_sq a b : 0 < a -> 0 < b ->
  (sqrt (a * b) / (a + b) / sqrt (a + b + 1)) ^ 2 = a * b / ((a + b) ^ 2 * (a + b + 1)).
Proof.
  intros Ha Hb. assert (0 < a * b) by (apply Rmult_lt_0_compat; lra).
  pose proof (sqrt_pos_strict (a + b + 1) ltac:(lra)).
  replace ((sqrt (a * b) / (a + b) / sqrt (a + b + 1)) ^ 2)
    with ((sqrt (a * b)) ^ 2 / ((a + b) ^ 2 * (sqrt (a + b + 1)) ^ 2)) by (field; conds).
  rewrite !sqrt_pow2_eq by lra. reflexivity.
Qed.
Lemma beta_sigma_pos a b : 0 < a -> 0 < b -> 0 < sqrt (a * b) / (a + b) / sqrt (a + b + 1).
Proof.
  intros Ha Hb. assert (0 < a * b) by (apply Rmult_lt_0_compat; lra).
  repeat apply Rdiv_lt_0_compat; try lra; apply sqrt_pos_strict; lra.
Qed.
Lemma beta_nu a b : 0 < a -> 0 < b ->
  a / (a + b) * (1 - a / (a + b)) / (sqrt (a * b) / (a + b) / sqrt (a + b + 1)) ^ 2 - 1 = a + b.
Proof. intros Ha Hb. rewrite beta_sigma_sq by auto. field; conds. Qed.
Lemma beta_nu_x a b : 0 < a -> 0 < b ->
  xsub (xdiv (xmul (Fin (a / (a + b))) (xsub (Fin 1) (Fin (a / (a + b)))))
             (xpow (Fin (sqrt (a * b) / (a + b) / sqrt (a + b + 1))) 2)) (Fin 1) = Fin (a + b).
Proof.
  intros Ha Hb. rewrite xsub_fin, xmul_fin, xpow2_fin.
  pose proof (beta_sigma_pos a b Ha Hb) as P. apply (pow_lt _ 2) in P.
  rewrite xdiv_fin by lra. rewrite xsub_fin, beta_nu by auto. reflexivity.
Qed.
Lemma beta_from_mu_sigma_fin mu sigma : 0 < sigma ->
  beta_from_mu_sigma (Fin mu) (Fin sigma) =
  let nu := mu * (1 - mu) / sigma ^ 2 - 1 in Ok (Fin (mu * nu), Fin ((1 - mu) * nu)).
Proof.
  intro H. unfold beta_from_mu_sigma. rewrite xsub_fin, xmul_fin, xpow2_fin.
  assert (0 < sigma ^ 2) by (apply pow_lt; lra). rewrite pydiv_fin by lra. reflexivity.
Qed.
Lemma beta_mu_back mu nu : nu <> 0 -> mu * nu / (mu * nu + (1 - mu) * nu) = mu.
Proof. intro H. replace (mu * nu + (1 - mu) * nu) with nu by ring. field; conds. Qed.
Lemma beta_sigma_back mu sigma : 0 < mu < 1 -> 0 < sigma -> sigma ^ 2 < mu * (1 - mu) ->
  let nu := mu * (1 - mu) / sigma ^ 2 - 1 in
  0 < nu /\ sqrt (mu * nu * ((1 - mu) * nu)) / (mu * nu + (1 - mu) * nu) / sqrt (mu * nu + (1 - mu) * nu + 1) = sigma.
Proof.
  intros Hm Hs Hv nu. assert (S2 : 0 < sigma ^ 2) by (apply pow_lt; lra).
  assert (Hnu : 0 < nu).
  { unfold nu. apply Rlt_Rminus. apply Rmult_lt_reg_r with (sigma ^ 2); [lra|]. unfold Rdiv.
    rewrite Rmult_assoc, Rinv_l by lra. lra. }
  split; [exact Hnu|].
  set (m := mu * (1 - mu)). assert (M : 0 < m) by (unfold m; apply Rmult_lt_0_compat; lra).
  replace (mu * nu + (1 - mu) * nu) with nu by ring.
  replace (nu + 1) with (m / sigma ^ 2) by (unfold nu, m; ring).
  replace (mu * nu * ((1 - mu) * nu)) with (m * (nu * nu)) by (unfold m; ring).
  rewrite sqrt_mult by nra. rewrite sqrt_square by lra.
  rewrite sqrt_div by lra. replace (sqrt (sigma ^ 2)) with sigma by (symmetry; apply sqrt_uniq; [lra|ring]).
  pose proof (sqrt_pos_strict m M). field; conds.
Qed.

(* ---- Gamma, InverseGamma ---- *)
Lemma gamma_to_mu_sigma_fin a b : 0 <= a -> b <> 0 ->
  gamma_to_mu_sigma (Fin a) (Fin b) = (Fin (a / b), Fin (sqrt a / b)).
Proof. intros Ha Hb. unfold gamma_to_mu_sigma. rewrite xhalf_fin, !xdiv_fin by auto. reflexivity. Qed.
Lemma gamma_from_mu_sigma_fin mu sigma : 0 < sigma ->
  gamma_from_mu_sigma (Fin mu) (Fin sigma) = Ok (Fin (mu ^ 2 / sigma ^ 2), Fin (mu / sigma ^ 2)).
Proof.
  intro H. unfold gamma_from_mu_sigma. rewrite !xpow2_fin. assert (0 < sigma ^ 2) by (apply pow_lt; lra).
  rewrite !pydiv_fin by lra. reflexivity.
Qed.
Lemma sqrt_ratio mu sigma : 0 < mu -> 0 < sigma -> sqrt (mu ^ 2 / sigma ^ 2) = mu / sigma.
Proof.
  intros. apply sqrt_uniq; [apply Rlt_le, Rdiv_lt_0_compat; lra|]. field; conds.
Qed.
Lemma ig_to_mu_fin a b : 1 < a -> ig_to_mu (Fin a) (Fin b) = Fin (b / (a - 1)).
Proof. intro H. unfold ig_to_mu. cbn [xltb]. rewrite Rltb_true by lra. rewrite xsub_fin, xdiv_fin by lra. reflexivity. Qed.
Lemma ig_to_sigma_fin a b : 2 < a -> ig_to_sigma (Fin a) (Fin b) = Fin (b / ((a - 1) * sqrt (a - 2))).
Proof.
  intro H. unfold ig_to_sigma. cbn [xltb]. rewrite Rltb_true by lra.
  rewrite !xsub_fin, xhalf_fin, xmul_fin by lra. pose proof (sqrt_pos_strict (a - 2) ltac:(lra)).
  rewrite xdiv_fin; [reflexivity|]. apply Rmult_integral_contrapositive_currified; lra.
Qed.
Lemma ig_from_mu_sigma_fin mu sigma : 0 < sigma ->
  ig_from_mu_sigma (Fin mu) (Fin sigma) = (Fin (mu ^ 2 / sigma ^ 2 + 2), Fin (mu ^ 3 / sigma ^ 2 + mu)).
Proof.
  intro H. unfold ig_from_mu_sigma. rewrite xpow3_fin, !xpow2_fin. assert (0 < sigma ^ 2) by (apply pow_lt; lra).
  rewrite !xdiv_fin by lra. reflexivity.
Qed.

(* ---- counts ---- *)
Lemma truncate_nonneg r : 0 <= r -> truncate r = IZR (Int_part r).
Proof. intro H. unfold truncate. rewrite Rltb_false by lra. reflexivity. Qed.
