(** C11 for the Rice distribution. *)
From Coq Require Import Reals Lra.
From Verif Require Import Base XR RiceModel.
Open Scope R_scope.

(** Mean and variance of Rice(nu, sigma): E X = sigma sqrt(pi/2) L_{1/2}(- nu^2 / (2 sigma^2)), E X^2 = nu^2 + 2 sigma^2, where
    L_{1/2}(x) = exp(x/2) ((1 - x) I0(-x/2) - x I1(-x/2)) is a Laguerre function and I0, I1 are Bessel functions. *)
Definition laguerre_half (i0 i1 : R -> R) (x : R) : R := exp (x / 2) * ((1 - x) * i0 (- x / 2) - x * i1 (- x / 2)).
Definition rice_mean (i0 i1 : R -> R) (nu sigma : R) : R := sigma * sqrt (PI / 2) * laguerre_half i0 i1 (- nu ^ 2 / (2 * sigma ^ 2)).
Definition rice_var (i0 i1 : R -> R) (nu sigma : R) : R := nu ^ 2 + 2 * sigma ^ 2 - rice_mean i0 i1 nu sigma ^ 2.

Lemma rice_mean_theta i0 i1 nu sigma theta : 0 < sigma -> nu = theta * sigma ->
  rice_mean i0 i1 nu sigma ^ 2 = sigma ^ 2 * (2 + theta ^ 2 - xi i0 i1 theta).
Proof.
  intros S ->. unfold rice_mean, laguerre_half. replace (- (theta * sigma) ^ 2 / (2 * sigma ^ 2)) with (- theta ^ 2 / 2) by (field; lra).
  replace (- (- theta ^ 2 / 2) / 2) with (theta ^ 2 / 4) by field. replace (- theta ^ 2 / 2 / 2) with (- theta ^ 2 / 4) by field.
  set (A := i0 (theta ^ 2 / 4)). set (B := i1 (theta ^ 2 / 4)). unfold xi. fold A B.
  replace (exp (- theta ^ 2 / 2)) with (exp (- theta ^ 2 / 4) * exp (- theta ^ 2 / 4)) by (rewrite <- exp_plus; f_equal; field).
  set (E := exp (- theta ^ 2 / 4)). pose proof PI_RGT_0.
  assert (Q : sqrt (PI / 2) * sqrt (PI / 2) = PI / 2) by (apply sqrt_sqrt; lra).
  transitivity (sigma ^ 2 * (sqrt (PI / 2) * sqrt (PI / 2)) * (E * E) * ((1 - - theta ^ 2 / 2) * A - - theta ^ 2 / 2 * B) ^ 2); [ring|].
  rewrite Q. field.
Qed.
Lemma rice_var_theta i0 i1 nu sigma theta : 0 < sigma -> nu = theta * sigma -> rice_var i0 i1 nu sigma = sigma ^ 2 * xi i0 i1 theta.
Proof. intros S E. unfold rice_var. rewrite (rice_mean_theta i0 i1 nu sigma theta S E). rewrite E. ring. Qed.

(** When the ratio mean / sd is large enough for the inversion and the minimiser brings the loss to zero at a non negative point, the
    fitted Rice distribution has the requested mean and standard deviation. *)
Theorem C11_rice : forall i0 i1 minimize mean sd, (forall x, 0 <= x -> 0 <= i0 x) -> (forall x, 0 <= x -> 0 <= i1 x) ->
  0 < mean -> 0 < sd -> 1913 / 1000 <= mean / sd ->
  let theta := minimize (rice_loss i0 i1 (mean / sd)) (fpf i0 i1 (mean / sd) 1) in
  0 < theta -> rice_loss i0 i1 (mean / sd) theta = 0 ->
  exists nu sigma, rice_moments i0 i1 minimize mean sd = (nu, sigma) /\ 0 < nu /\ 0 < sigma /\
    rice_mean i0 i1 nu sigma = mean /\ sqrt (rice_var i0 i1 nu sigma) = sd.
Proof.
  intros i0 i1 minimize mean sd P0 P1 Hm Hs Hr theta Ht HL. unfold rice_moments. rewrite Rltb_false by lra. fold theta.
  set (r := mean / sd) in *. unfold rice_loss in HL.
  assert (FX : fpf i0 i1 r theta = theta) by (destruct (Req_dec (fpf i0 i1 r theta - theta) 0) as [Z|Z]; [lra|apply Rabs_no_R0 in Z; lra]).
  assert (PO : 0 < xi i0 i1 theta * (1 + r ^ 2) - 2).
  { destruct (Rle_lt_dec (xi i0 i1 theta * (1 + r ^ 2) - 2) 0) as [Z|Z]; [|exact Z]. unfold fpf in FX. rewrite sqrt_neg_0 in FX by exact Z. lra. }
  assert (SQ : theta ^ 2 = xi i0 i1 theta * (1 + r ^ 2) - 2).
  { rewrite <- FX at 1. unfold fpf. rewrite pow2_sqrt by lra. reflexivity. }
  set (X := xi i0 i1 theta) in *. assert (XP : 0 < X). { pose proof (pow2_ge_0 r). nra. }
  set (sigma := sd / sqrt X). assert (SX : 0 < sqrt X) by (apply sqrt_lt_R0; exact XP).
  assert (SP : 0 < sigma) by (apply Rdiv_lt_0_compat; lra).
  assert (S2 : sigma ^ 2 * X = sd ^ 2).
  { unfold sigma. replace ((sd / sqrt X) ^ 2 * X) with (sd ^ 2 * (X / (sqrt X * sqrt X))) by (field; lra). rewrite sqrt_sqrt by lra. field. lra. }
  assert (NU : mean ^ 2 + (X - 2) * sigma ^ 2 = (theta * sigma) ^ 2).
  { replace ((theta * sigma) ^ 2) with (theta ^ 2 * sigma ^ 2) by ring. rewrite SQ.
    replace (mean ^ 2) with (r ^ 2 * sd ^ 2) by (unfold r; field; lra). rewrite <- S2. ring. }
  assert (TS : 0 < theta * sigma) by (apply Rmult_lt_0_compat; lra).
  exists (theta * sigma), sigma. rewrite NU, sqrt_pow2 by lra. split; [reflexivity|]. split; [exact TS|]. split; [exact SP|].
  pose proof (rice_var_theta i0 i1 _ sigma theta SP eq_refl) as V. pose proof (rice_mean_theta i0 i1 _ sigma theta SP eq_refl) as M. fold X in V, M.
  split.
  - assert (M2 : rice_mean i0 i1 (theta * sigma) sigma ^ 2 = mean ^ 2).
    { rewrite M. replace (sigma ^ 2 * (2 + theta ^ 2 - X)) with (2 * sigma ^ 2 + (theta * sigma) ^ 2 - sigma ^ 2 * X) by ring. rewrite <- NU. rewrite S2.
      replace (2 * sigma ^ 2 + (mean ^ 2 + (X - 2) * sigma ^ 2) - sd ^ 2) with (mean ^ 2 + sigma ^ 2 * X - sd ^ 2) by ring. rewrite S2. ring. }
    assert (0 <= rice_mean i0 i1 (theta * sigma) sigma).
    { unfold rice_mean, laguerre_half. assert (0 <= (theta * sigma) ^ 2 / (2 * sigma ^ 2)).
      { apply Rmult_le_pos; [apply pow2_ge_0|]. left. apply Rinv_0_lt_compat. assert (0 < sigma ^ 2) by (apply pow_lt; lra). lra. }
      replace (- (theta * sigma) ^ 2 / (2 * sigma ^ 2)) with (- ((theta * sigma) ^ 2 / (2 * sigma ^ 2))) by (field; lra).
      set (u := (theta * sigma) ^ 2 / (2 * sigma ^ 2)) in *. replace (- - u / 2) with (u / 2) by field.
      apply Rmult_le_pos; [apply Rmult_le_pos; [lra|apply sqrt_pos]|]. apply Rmult_le_pos; [left; apply exp_pos|].
      pose proof (P0 (u / 2) ltac:(lra)). pose proof (P1 (u / 2) ltac:(lra)).
      assert (0 <= (1 + u) * i0 (u / 2)) by (apply Rmult_le_pos; lra). assert (0 <= u * i1 (u / 2)) by (apply Rmult_le_pos; lra). lra. }
    assert (mean = rice_mean i0 i1 (theta * sigma) sigma); [|lra]. 
    rewrite <- (sqrt_pow2 mean), <- (sqrt_pow2 (rice_mean i0 i1 (theta * sigma) sigma)) by lra. now rewrite M2.
  - rewrite V, S2. apply sqrt_pow2. lra.
Qed.

(** Small ratios: the standard deviation of a Rayleigh variable is 0.655 sigma, so sigma should be sd / 0.655. The code multiplies: the
    fitted standard deviation is less than half of the requested one, whatever the mean. *)
Theorem C11_rice_rayleigh_refuted : forall i0 i1 minimize mean sd,
  (forall x, 0 <= x -> 1 <= i0 x) -> (forall x, 0 <= x -> 0 <= i1 x) -> 1 <= sd -> mean / sd < 1913 / 1000 ->
  exists nu sigma, rice_moments i0 i1 minimize mean sd = (nu, sigma) /\ rice_var i0 i1 nu sigma < (sd / 2) ^ 2.
Proof.
  intros i0 i1 minimize mean sd P0 P1 Hs Hr. unfold rice_moments. rewrite Rltb_true by lra. exists eps, (655 / 1000 * sd). split; [reflexivity|].
  set (s := 655 / 1000 * sd). assert (SP : 0 < s) by (unfold s; lra). set (theta := eps / s).
  rewrite (rice_var_theta i0 i1 eps s theta SP) by (unfold theta; field; lra).
  pose proof eps_pos as E0. pose proof eps_small as E1.
  assert (T0 : 0 < theta) by (apply Rdiv_lt_0_compat; lra).
  assert (T1 : theta <= 1 / 100000).
  { unfold theta. apply Rmult_le_reg_r with s; [lra|]. unfold Rdiv at 1. rewrite Rmult_assoc, Rinv_l by lra. unfold s. lra. }
  set (u := theta ^ 2). assert (U : 0 <= u <= 1 / 1000000) by (unfold u; nra).
  pose proof (P0 (u / 4) ltac:(lra)) as A. pose proof (P1 (u / 4) ltac:(lra)) as B.
  assert (PI3 : 3 < PI). { pose proof PI2_3_2. unfold PI2 in *. lra. }
  assert (EX : 1 - u / 2 <= exp (- u / 2)) by (pose proof (exp_ineq1_le (- u / 2)); lra).
  assert (XB : xi i0 i1 theta < 51 / 100).
  { unfold xi. fold u. set (W := (2 + u) * i0 (u / 4) + u * i1 (u / 4)). assert (2 <= W). { unfold W. assert (0 <= u * i1 (u / 4)) by (apply Rmult_le_pos; lra). nra. }
    assert (4 <= W ^ 2) by nra. assert (0 < exp (- u / 2)) by apply exp_pos.
    assert (999 / 1000 * 4 <= exp (- u / 2) * W ^ 2) by nra. assert (3 / 8 * (999 / 1000 * 4) <= PI / 8 * (exp (- u / 2) * W ^ 2)) by nra.
    rewrite Rmult_assoc. lra. }
  unfold s. assert (1 <= sd ^ 2) by nra. nra.
Qed.
(** The hypotheses are met: with mean 1 and standard deviation 1. *)
Example C11_rice_rayleigh_example : forall i0 i1 minimize, (forall x, 0 <= x -> 1 <= i0 x) -> (forall x, 0 <= x -> 0 <= i1 x) ->
  exists nu sigma, rice_moments i0 i1 minimize 1 1 = (nu, sigma) /\ rice_var i0 i1 nu sigma < 1 / 4.
Proof.
  intros i0 i1 minimize H0 H1. destruct (C11_rice_rayleigh_refuted i0 i1 minimize 1 1 H0 H1) as (nu & sigma & E & V); [lra|lra|]. exists nu, sigma. split; [exact E|lra].
Qed.
(** Every Rice distribution with a ratio above 1.913 is recovered: its own theta = nu / sigma is a zero of the loss. *)
Example C11_rice_example : forall i0 i1 nu sigma mean sd, 0 < nu -> 0 < sigma -> 0 < mean -> 0 < sd -> rice_mean i0 i1 nu sigma = mean -> rice_var i0 i1 nu sigma = sd ^ 2 ->
  rice_loss i0 i1 (mean / sd) (nu / sigma) = 0.
Proof.
  intros i0 i1 nu sigma mean sd Hn Hs Hm Hd M V. unfold rice_loss, fpf. set (theta := nu / sigma). assert (N : nu = theta * sigma) by (unfold theta; field; lra).
  pose proof (rice_var_theta i0 i1 nu sigma theta Hs N) as V2. rewrite V in V2.
  assert (T : 0 < theta) by (apply Rdiv_lt_0_compat; lra).
  assert (MS : mean ^ 2 + sd ^ 2 = nu ^ 2 + 2 * sigma ^ 2) by (rewrite <- V, <- M; unfold rice_var; ring).
  assert (S2 : 0 < sigma ^ 2) by (apply pow_lt; lra). assert (D2 : 0 < sd ^ 2) by (apply pow_lt; lra).
  replace (xi i0 i1 theta * (1 + (mean / sd) ^ 2) - 2) with (theta ^ 2); [rewrite sqrt_pow2 by lra; rewrite Rminus_diag_eq by reflexivity; apply Rabs_R0|].
  replace (xi i0 i1 theta) with (sd ^ 2 / sigma ^ 2) by (rewrite V2; field; lra).
  replace (sd ^ 2 / sigma ^ 2 * (1 + (mean / sd) ^ 2)) with ((mean ^ 2 + sd ^ 2) / sigma ^ 2) by (field; lra).
  rewrite MS, N. field. lra.
Qed.
Print Assumptions C11_rice.
Print Assumptions C11_rice_rayleigh_refuted.
