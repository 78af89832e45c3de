(** C11: the shape a Weibull distribution gets from a mean and a standard deviation. *)
From Coq Require Import List Bool String Reals Lra Lia.
From Verif Require Import Base XR SpecialModel FamModel FamSpec FamArith FitModel FitSpec.
Import ListNotations.
Open Scope R_scope.
Open Scope string_scope.

Lemma garcia_at mean z : mean <> 0 ->
  garcia_alpha mean (z * mean) = 1 / (z * (1 + (1 - z) ^ 2 * (-0.221016417 + 0.010060668 * z + 0.117358987 * z ^ 2 - 0.050999126 * z ^ 3))).
Proof.
  intro H. unfold garcia_alpha. cbv zeta. replace (z * mean / mean) with z by (field; exact H).
  assert (P : garcia_poly z = -0.221016417 + 0.010060668 * z + 0.117358987 * z ^ 2 - 0.050999126 * z ^ 3).
  { unfold garcia_poly, garcia_ks. cbn [seq combine fold_left fst snd]. lra. }
  rewrite P. reflexivity.
Qed.

(** A standard deviation equal to the mean gives the exponential distribution with that mean; both moments are exact. *)
Theorem C11_weibull_exponential : forall eg gam opt d mean, 0 < mean -> gam 2 = Fin 1 -> gam 3 = Fin 2 ->
  exists d', fit_moments eg gam opt Weibull d mean mean = Ok d' /\ frozen d' = true /\
    attr d' "alpha" = Some (Fin 1) /\ attr d' "beta" = Some (Fin mean) /\
    let Gam := fun x => match gam x with Fin r => r | _ => 0 end in
    textbook_mean eg Gam Weibull (fin_attr d') = mean /\ textbook_var Gam Weibull (fin_attr d') = mean ^ 2.
Proof.
  intros eg gam opt d mean M G2 G3. cbn [fit_moments]. unfold weibull_fit, garcia_approximation.
  pose proof (garcia_at mean 1 ltac:(lra)) as A. rewrite Rmult_1_l in A. replace (1 - 1) with 0 in A by ring.
  replace (1 / (1 * (1 + 0 ^ 2 * (-0.221016417 + 0.010060668 * 1 + 0.117358987 * 1 ^ 2 - 0.050999126 * 1 ^ 3)))) with 1 in A by field.
  rewrite A. replace (1 + 1 / 1) with 2 by field. rewrite G2. replace (1 / (1 / mean)) with mean by (field; lra).
  eexists. split; [reflexivity|]. split; [reflexivity|]. split; [reflexivity|]. split; [reflexivity|].
  unfold fin_attr. cbv zeta. cbn [textbook_mean textbook_var]. cbn -[Rinv Rdiv Rmult Rplus pow].
  replace (1 + 1 / 1) with 2 by field. replace (1 + 2 / 1) with 3 by field. rewrite G2, G3. split; ring.
Qed.

(** Up to a standard deviation of twice the mean the shape is positive, and so is the scale. *)
Theorem C11_weibull_valid : forall eg gam opt d mean sigma, 0 < mean -> 0 < sigma <= 2 * mean ->
  (forall x, 0 < x -> exists g, gam x = Fin g /\ 0 < g) ->
  exists d' a b, fit_moments eg gam opt Weibull d mean sigma = Ok d' /\
    attr d' "alpha" = Some (Fin a) /\ attr d' "beta" = Some (Fin b) /\ 0 < a /\ 0 < b.
Proof.
  intros eg gam opt d mean sigma M S1 G. cbn [fit_moments]. unfold weibull_fit, garcia_approximation.
  set (z := sigma / mean). assert (Z0 : 0 < z) by (apply Rdiv_lt_0_compat; lra).
  assert (Z2 : z <= 2) by (apply Rmult_le_reg_r with mean; [exact M|]; unfold z, Rdiv; rewrite Rmult_assoc, Rinv_l by lra; lra).
  assert (A : 0 < garcia_alpha mean sigma).
  { replace sigma with (z * mean) by (unfold z; field; lra). rewrite garcia_at by lra. apply Rdiv_lt_0_compat; [lra|].
    apply Rmult_lt_0_compat; [exact Z0|].
    assert (P : -0.23 <= -0.221016417 + 0.010060668 * z + 0.117358987 * z ^ 2 - 0.050999126 * z ^ 3).
    { assert (0 <= z ^ 2 * (0.117358987 - 0.050999126 * z)) by (apply Rmult_le_pos; [apply pow2_ge_0|lra]).
      replace (z ^ 2 * (0.117358987 - 0.050999126 * z)) with (0.117358987 * z ^ 2 - 0.050999126 * z ^ 3) in H by ring. lra. }
    assert (Q : 0 <= (1 - z) ^ 2 <= 1) by (split; [apply pow2_ge_0|nra]).
    set (p := -0.221016417 + _) in *. clearbody p. nra. }
  destruct (G (1 + 1 / garcia_alpha mean sigma)) as (g & E & GP).
  { assert (0 < 1 / garcia_alpha mean sigma) by (apply Rdiv_lt_0_compat; lra). lra. }
  rewrite E. eexists _, _, _. split; [reflexivity|]. split; [reflexivity|]. split; [reflexivity|]. split; [exact A|].
  apply Rdiv_lt_0_compat; [lra|]. apply Rdiv_lt_0_compat; lra.
Qed.

(** A standard deviation of five times the mean gives a negative shape, which no Weibull distribution has. *)
Theorem C11_weibull_negative_refuted : forall eg gam opt d mean, 0 < mean ->
  exists d' a, fit_moments eg gam opt Weibull d mean (5 * mean) = Ok d' /\ attr d' "alpha" = Some (Fin a) /\ a < 0.
Proof.
  intros eg gam opt d mean M. cbn [fit_moments]. unfold weibull_fit, garcia_approximation. rewrite (garcia_at mean 5) by lra.
  eexists _, _. split; [reflexivity|]. split; [reflexivity|].
  unfold Rdiv. rewrite Rmult_1_l. apply Rinv_lt_0_compat. lra.
Qed.
Example C11_weibull_applies : let gam x := Fin (if Reqb x 3 then 2 else 1) in
  gam 2 = Fin 1 /\ gam 3 = Fin 2 /\ (forall x, 0 < x -> exists g, gam x = Fin g /\ 0 < g) /\ 0 < 3 <= 2 * 2.
Proof.
  cbv zeta. split; [destruct (Reqb_spec 2 3); [lra|reflexivity]|]. split; [destruct (Reqb_spec 3 3); [reflexivity|lra]|].
  split; [|lra]. intros x _. eexists. split; [reflexivity|]. destruct (Reqb x 3); lra.
Qed.

Print Assumptions C11_weibull_exponential.
Print Assumptions C11_weibull_valid.
Print Assumptions C11_weibull_negative_refuted.
