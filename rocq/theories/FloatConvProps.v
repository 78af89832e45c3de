(** C89: the parameters a distribution reports, with conversions computed in double precision. *)
From Coq Require Import List Bool Reals ZArith Lra Lia Psatz.
From Flocq Require Import Core Plus_error Relative.
From Verif Require Import XR LawModel FloatModel FloatProofs FloatConvModel.
Import ListNotations.
Open Scope R_scope.

(* ------------------------------------------------------------ specification *)
(** [y] is within [k] units of 2^-53, relative to [x], of [x]. *)
Definition within (k : R) (x y : R) : Prop := Rabs (y - x) <= k * bpow radix2 (-53) * x.
(** Neither tiny nor huge. *)
Definition moderate (x : R) : Prop := bpow radix2 (-200) <= x <= bpow radix2 200.

(* ------------------------------------------------------------ relative errors *)
#[local] Instance prec53 : Prec_gt_0 53. Proof. reflexivity. Qed.
Definition u : R := bpow radix2 (-53).
Lemma u_is : u = / 9007199254740992. Proof. reflexivity. Qed.
Lemma u_small : 0 < u < / 1000000. Proof. rewrite u_is. lra. Qed.
(** [y] differs from [x] by at most [n] roundings. *)
Definition rel (n : nat) (x y : R) : Prop := 0 <= x /\ x * (1 - u) ^ n <= y <= x * / (1 - u) ^ n.
(** Bounds on exponents. *)
Definition bd (e : Z) (x : R) : Prop := bpow radix2 (- e) <= x <= bpow radix2 e.

Lemma q_pos n : 0 < (1 - u) ^ n.
Proof. apply pow_lt. pose proof u_small. lra. Qed.
Lemma q_le_1 n : (1 - u) ^ n <= 1.
Proof. pose proof u_small. induction n as [|n IH]; cbn [pow]; [lra|]. pose proof (q_pos n). nra. Qed.
Lemma q_bernoulli n : 1 - INR n * u <= (1 - u) ^ n.
Proof.
  pose proof u_small. induction n as [|n IH]; cbn [pow]; [cbn; lra|]. rewrite S_INR.
  pose proof (pos_INR n). pose proof (q_pos n). pose proof (q_le_1 n). nra.
Qed.
Lemma q_mono n m : (n <= m)%nat -> (1 - u) ^ m <= (1 - u) ^ n.
Proof.
  intro H. replace m with (n + (m - n))%nat by lia. rewrite pow_add. pose proof (q_pos n). pose proof (q_le_1 (m - n)). pose proof (q_pos (m - n)). nra.
Qed.

Lemma rel_refl x : 0 <= x -> rel 0 x x.
Proof. intro H. unfold rel. cbn [pow]. replace (/ 1) with 1 by field. lra. Qed.
Lemma rel_weak n m x y : (n <= m)%nat -> rel n x y -> rel m x y.
Proof.
  intros H (X & A & B). split; [exact X|]. pose proof (q_mono n m H) as Q. pose proof (q_pos n) as Qn. pose proof (q_pos m) as Qm. split.
  - apply Rle_trans with (x * (1 - u) ^ n); [apply Rmult_le_compat_l; assumption|exact A].
  - apply Rle_trans with (x * / (1 - u) ^ n); [exact B|]. apply Rmult_le_compat_l; [exact X|]. apply Rinv_le_contravar; assumption.
Qed.
Lemma rel_pos n x y : rel n x y -> 0 <= y.
Proof. intros (X & A & _). pose proof (q_pos n). apply Rle_trans with (x * (1 - u) ^ n); [apply Rmult_le_pos; lra|exact A]. Qed.
Lemma rel_spos n x y : rel n x y -> 0 < x -> 0 < y.
Proof. intros (X & A & _) P. pose proof (q_pos n). apply Rlt_le_trans with (x * (1 - u) ^ n); [apply Rmult_lt_0_compat; lra|exact A]. Qed.
Lemma rel_mul n m x y x' y' : rel n x y -> rel m x' y' -> rel (n + m) (x * x') (y * y').
Proof.
  intros H H'. pose proof (rel_pos _ _ _ H) as Y. pose proof (rel_pos _ _ _ H') as Y'. destruct H as (X & A & B), H' as (X' & A' & B').
  pose proof (q_pos n) as Qn. pose proof (q_pos m) as Qm. split; [apply Rmult_le_pos; assumption|]. rewrite pow_add. split.
  - replace (x * x' * ((1 - u) ^ n * (1 - u) ^ m)) with ((x * (1 - u) ^ n) * (x' * (1 - u) ^ m)) by ring.
    apply Rmult_le_compat; try assumption; apply Rmult_le_pos; lra.
  - rewrite Rinv_mult. replace (x * x' * (/ (1 - u) ^ n * / (1 - u) ^ m)) with ((x * / (1 - u) ^ n) * (x' * / (1 - u) ^ m)) by ring.
    apply Rmult_le_compat; assumption.
Qed.
Lemma rel_inv n x y : 0 < x -> rel n x y -> rel n (/ x) (/ y).
Proof.
  intros P H. pose proof (rel_spos _ _ _ H P) as Y. destruct H as (X & A & B). pose proof (q_pos n) as Qn. pose proof (Rinv_0_lt_compat _ Qn) as Qi.
  split; [left; apply Rinv_0_lt_compat, P|]. split.
  - replace (/ x * (1 - u) ^ n) with (/ (x * / (1 - u) ^ n)) by (rewrite Rinv_mult, Rinv_inv; reflexivity). apply Rinv_le_contravar; assumption.
  - replace (/ x * / (1 - u) ^ n) with (/ (x * (1 - u) ^ n)) by apply Rinv_mult. apply Rinv_le_contravar; [|exact A]. apply Rmult_lt_0_compat; assumption.
Qed.
Lemma rel_div n m x y x' y' : 0 < x' -> rel n x y -> rel m x' y' -> rel (n + m) (x / x') (y / y').
Proof. intros P H H'. apply rel_mul; [exact H|apply rel_inv; assumption]. Qed.
Lemma rel_add n x y x' y' : rel n x y -> rel n x' y' -> rel n (x + x') (y + y').
Proof.
  intros (X & A & B) (X' & A' & B'). split; [lra|]. rewrite !Rmult_plus_distr_r. lra.
Qed.
Lemma rel_sqrt n x y : rel (2 * n) x y -> rel n (sqrt x) (sqrt y).
Proof.
  intro H. pose proof (rel_pos _ _ _ H) as Y. destruct H as (X & A & B). pose proof (q_pos n) as Qn. pose proof (Rinv_0_lt_compat _ Qn) as Qi.
  replace (2 * n)%nat with (n + n)%nat in A, B by lia. rewrite pow_add in A, B. split; [apply sqrt_pos|]. split.
  - replace (sqrt x * (1 - u) ^ n) with (sqrt (x * ((1 - u) ^ n * (1 - u) ^ n))); [apply sqrt_le_1_alt, A|].
    rewrite sqrt_mult by (try exact X; nra). rewrite sqrt_square by lra. reflexivity.
  - replace (sqrt x * / (1 - u) ^ n) with (sqrt (x * / ((1 - u) ^ n * (1 - u) ^ n))); [apply sqrt_le_1_alt, B|].
    rewrite Rinv_mult. rewrite sqrt_mult by (try exact X; nra). rewrite sqrt_square by lra. reflexivity.
Qed.
Lemma rel_trans n m x y z : rel n x y -> rel m y z -> rel (n + m) x z.
Proof.
  intros (X & A & B) (Y & C & D). split; [exact X|]. pose proof (q_pos n) as Qn. pose proof (q_pos m) as Qm. rewrite pow_add. split.
  - apply Rle_trans with (y * (1 - u) ^ m); [|exact C]. rewrite <- Rmult_assoc. apply Rmult_le_compat_r; lra.
  - apply Rle_trans with (y * / (1 - u) ^ m); [exact D|]. rewrite Rinv_mult, <- Rmult_assoc. apply Rmult_le_compat_r; [left; apply Rinv_0_lt_compat, Qm|exact B].
Qed.
(** One rounding. *)
Lemma rel_eps y e : 0 <= y -> Rabs e <= u -> rel 1 y (y * (1 + e)).
Proof.
  intros Y E. apply Rabs_le_inv in E. pose proof u_small as U. split; [exact Y|]. cbn [pow]. rewrite Rmult_1_r.
  split; apply Rmult_le_compat_l; try exact Y; [lra|].
  apply Rle_trans with (1 + u); [lra|]. apply Rmult_le_reg_r with (1 - u); [lra|]. rewrite Rinv_l by lra. nra.
Qed.
Lemma rel_rnd n x y : (n <= 30)%nat -> rel n x y -> bpow radix2 (-1000) <= x -> rel (S n) x (rnd y).
Proof.
  intros N H L. replace (S n) with (n + 1)%nat by lia. apply rel_trans with y; [exact H|].
  pose proof (rel_pos _ _ _ H) as Y. destruct H as (X & A & B). pose proof u_small as U.
  assert (Q : / 2 <= (1 - u) ^ n).
  { apply Rle_trans with (1 - INR n * u); [|apply q_bernoulli]. assert (INR n <= 30) by (replace 30 with (INR 30) by (cbn; lra); apply le_INR, N). nra. }
  assert (YL : bpow radix2 (-1022) <= y).
  { apply Rle_trans with (bpow radix2 (-1000 + -1)); [apply bpow_le; lia|]. rewrite bpow_plus. replace (bpow radix2 (-1)) with (/ 2) by (cbn; lra).
    apply Rle_trans with (x * (1 - u) ^ n); [|exact A]. apply Rmult_le_compat; try lra. apply bpow_ge_0. }
  destruct (relative_error_N_FLT_ex radix2 (-1074) 53 ltac:(reflexivity) (fun x => negb (Z.even x)) y) as (e & E & EQ).
  { rewrite Rabs_pos_eq by exact Y. exact YL. }
  unfold rnd. rewrite EQ. apply rel_eps; [exact Y|]. eapply Rle_trans; [exact E|]. rewrite u_is. cbn. lra.
Qed.
Lemma rel_fadd n x a b : rel n x (a + b) -> double a -> double b -> rel (S n) x (fadd a b).
Proof.
  intros H DA DB. replace (S n) with (n + 1)%nat by lia. apply rel_trans with (a + b); [exact H|]. pose proof (rel_pos _ _ _ H) as Y.
  destruct (FLT_plus_error_N_ex radix2 (-1074) 53 (fun x => negb (Z.even x)) a b DA DB) as (e & E & EQ).
  unfold fadd, rnd. rewrite EQ. apply rel_eps; [exact Y|]. eapply Rle_trans; [exact E|].
  assert (UU : u_ro radix2 53 = u) by (rewrite u_is; unfold u_ro; cbn; lra). rewrite UU. pose proof u_small as U.
  apply Rmult_le_reg_r with (1 + u); [lra|]. unfold Rdiv. rewrite Rmult_assoc, Rinv_l by lra. nra.
Qed.
Lemma rel_within n k x y : (n <= 30)%nat -> INR n + / 2 <= k -> rel n x y -> within k x y.
Proof.
  intros N K (X & A & B). unfold within. fold u. pose proof u_small as U. pose proof (q_bernoulli n) as Q. pose proof (q_pos n) as QP.
  assert (IN : 0 <= INR n <= 30) by (split; [apply pos_INR|replace 30 with (INR 30) by (cbn; lra); apply le_INR, N]).
  assert (NU : 0 <= INR n * u <= 30 * / 1000000) by (split; [apply Rmult_le_pos; lra|apply Rmult_le_compat; lra]).
  assert (I : / (1 - u) ^ n <= 1 + (INR n + / 2) * u).
  { apply Rle_trans with (/ (1 - INR n * u)); [apply Rinv_le_contravar; lra|].
    apply Rmult_le_reg_r with (1 - INR n * u); [lra|]. rewrite Rinv_l by lra.
    assert (INR n * u * (INR n + / 2) <= / 2) by nra.
    replace ((1 + (INR n + / 2) * u) * (1 - INR n * u)) with (1 + u * (/ 2 - INR n * u * (INR n + / 2))) by ring. nra. }
  assert (I2 : x * / (1 - u) ^ n <= x * (1 + (INR n + / 2) * u)) by (apply Rmult_le_compat_l; assumption).
  assert (A2 : x * (1 - INR n * u) <= x * (1 - u) ^ n) by (apply Rmult_le_compat_l; assumption).
  assert (K2 : (INR n + / 2) * u * x <= k * u * x) by (apply Rmult_le_compat_r; [exact X|]; apply Rmult_le_compat_r; lra).
  assert (0 <= / 2 * u * x) by (apply Rmult_le_pos; lra).
  apply Rabs_le. split; lra.
Qed.

(* ------------------------------------------------------------ ranges *)
Lemma bd_moderate x : moderate x -> bd 200 x. Proof. exact (fun H => H). Qed.
Lemma bd_pos e x : bd e x -> 0 < x.
Proof. intros [A _]. apply Rlt_le_trans with (2 := A). apply bpow_gt_0. Qed.
Lemma bd_mul e f x y : bd e x -> bd f y -> bd (e + f) (x * y).
Proof.
  intros HX HY. pose proof (bd_pos _ _ HX). pose proof (bd_pos _ _ HY). destruct HX as [A B], HY as [C D]. unfold bd.
  replace (- (e + f))%Z with (- e + - f)%Z by lia. rewrite !bpow_plus. split; apply Rmult_le_compat; try assumption; try apply bpow_ge_0; lra.
Qed.
Lemma bd_inv e x : bd e x -> bd e (/ x).
Proof.
  intro H. pose proof (bd_pos _ _ H) as P. destruct H as [A B]. unfold bd. rewrite bpow_opp.
  split; [apply Rinv_le_contravar; assumption|]. rewrite <- (Rinv_inv (bpow radix2 e)), <- bpow_opp. apply Rinv_le_contravar; [apply bpow_gt_0|exact A].
Qed.
Lemma bd_div e f x y : bd e x -> bd f y -> bd (e + f) (x / y).
Proof. intros A B. apply bd_mul; [exact A|apply bd_inv, B]. Qed.
Lemma bd_weak e f x : (e <= f)%Z -> bd e x -> bd f x.
Proof. intros L [A B]. split; [eapply Rle_trans; [|exact A]; apply bpow_le; lia|eapply Rle_trans; [exact B|]; apply bpow_le; lia]. Qed.
Lemma bd_sqrt e x : (0 <= e)%Z -> bd e x -> bd e (sqrt x).
Proof.
  intros E H. pose proof (bd_pos _ _ H) as P. destruct H as [A B].
  assert (L : forall f, (bpow radix2 f) * (bpow radix2 f) = bpow radix2 (f + f)) by (intro; symmetry; apply bpow_plus). split.
  - rewrite <- (sqrt_square (bpow radix2 (- e))) by apply bpow_ge_0. apply sqrt_le_1_alt. rewrite L. eapply Rle_trans; [|exact A]. apply bpow_le. lia.
  - rewrite <- (sqrt_square (bpow radix2 e)) by apply bpow_ge_0. apply sqrt_le_1_alt. rewrite L. eapply Rle_trans; [exact B|]. apply bpow_le. lia.
Qed.
Lemma bd_add e x y : bd e x -> 0 <= y <= bpow radix2 e -> bd (e + 1) (x + y).
Proof.
  intros [A B] C. split.
  - apply Rle_trans with (bpow radix2 (- e)); [apply bpow_le; lia|lra].
  - rewrite bpow_plus. replace (bpow radix2 1) with 2 by (cbn; lra). lra.
Qed.
Lemma bd_1 : bd 0 1. Proof. split; cbn; lra. Qed.
Lemma bd_rnd e x : (e <= 1000)%Z -> bd e x -> bpow radix2 (-1000) <= x.
Proof. intros E [A _]. eapply Rle_trans; [|exact A]. apply bpow_le. lia. Qed.

Ltac bdt := first [eassumption | apply bd_1 | eapply bd_mul; bdt | eapply bd_div; bdt | eapply bd_inv; bdt | eapply bd_sqrt; [|bdt]; lia].


Lemma fdiv_rel n m g x y z a b : rel n x a -> rel m y b -> 0 < y -> x / y = z -> bd g z -> (g <= 1000)%Z -> (n + m <= 30)%nat ->
  rel (S (n + m)) z (fdiv a b).
Proof. intros A B Y <- Z G N. apply rel_rnd; [exact N| |eapply bd_rnd; eassumption]. apply rel_div; assumption. Qed.
Lemma fmul_rel n m g x y z a b : rel n x a -> rel m y b -> x * y = z -> bd g z -> (g <= 1000)%Z -> (n + m <= 30)%nat ->
  rel (S (n + m)) z (fmul a b).
Proof. intros A B <- Z G N. apply rel_rnd; [exact N| |eapply bd_rnd; eassumption]. apply rel_mul; assumption. Qed.
Lemma fsquare_rel n g x z a : rel n x a -> x * x = z -> bd g z -> (g <= 1000)%Z -> (n + n <= 30)%nat -> rel (S (n + n)) z (fsquare a).
Proof. intros A E Z G N. exact (fmul_rel n n g x x z a a A A E Z G N). Qed.
Lemma froot_rel n g x z a : rel (2 * n) x a -> sqrt x = z -> bd g z -> (g <= 1000)%Z -> (n <= 30)%nat -> rel (S n) z (froot a).
Proof. intros A <- Z G N. apply rel_rnd; [exact N| |eapply bd_rnd; eassumption]. apply rel_sqrt, A. Qed.
Lemma rel_bd_refl e x : bd e x -> rel 0 x x.
Proof. intro H. apply rel_refl. left. apply (bd_pos _ _ H). Qed.
Lemma rnd_bpow e : (-1074 <= e)%Z -> rnd (bpow radix2 e) = bpow radix2 e.
Proof. intro H. apply rnd_id, double_bpow, H. Qed.
Lemma inv_bpow e : 1 / bpow radix2 e = bpow radix2 (- e).
Proof. rewrite bpow_opp. unfold Rdiv. apply Rmult_1_l. Qed.

Ltac lit := cbn; first [lia | split; lra | apply Rabs_def1; lra].
(* ------------------------------------------------------------ theorems *)
(** Exponential(scale=s) reports a scale within 2.5 units of s, and exactly s if it is a power of two. *)
Theorem C89_exponential : forall scale, moderate scale ->
  within (5 / 2) scale (f_reported_scale scale) /\ (forall e, scale = bpow radix2 e -> f_reported_scale scale = scale).
Proof.
  intros s H. pose proof (bd_moderate _ H) as B. pose proof (bd_pos _ _ B) as P. split.
  - apply rel_within with 2%nat; [lia|cbn; lra|]. pose proof (bd_inv _ _ B) as BI. pose proof (bd_pos _ _ BI) as PI.
    apply (fdiv_rel 0 1 200 1 (/ s)); [apply (rel_bd_refl _ _ bd_1)| |exact PI|field; lra|exact B|lia|lia].
    apply (fdiv_rel 0 0 200 1 s); [apply (rel_bd_refl _ _ bd_1)|apply (rel_bd_refl _ _ B)|exact P|field; lra|exact BI|lia|lia].
  - intros e ->. unfold f_reported_scale, fdiv. destruct H as [L U].
    apply (le_bpow radix2) in L. apply (le_bpow radix2) in U. cbv zeta. rewrite inv_bpow, rnd_bpow, inv_bpow, Z.opp_involutive, rnd_bpow by lia. reflexivity.
Qed.
(** Not the scale that was given: 49 becomes 49.00000000000001. *)
Theorem C89_exponential_refuted : 49 < f_reported_scale 49.
Proof.
  unfold f_reported_scale. cbv zeta.
  assert (A : fdiv 1 49 = 5882252574524729 * / 288230376151711744).
  { unfold fdiv. rewrite (rnd_is (-58) 5882252574524729) by lit. cbn. lra. }
  rewrite A. unfold fdiv. rewrite (rnd_is (-47) 6896136929411073) by lit. cbn. lra.
Qed.

(** Gamma(mu, sigma) reports a mean within 6.5 units of mu and a standard deviation within 6.5 units of sigma. *)
Theorem C89_gamma : forall mu sigma, moderate mu -> moderate sigma ->
  let '(mu', sigma') := f_gamma_reported mu sigma in within (13 / 2) mu mu' /\ within (13 / 2) sigma sigma'.
Proof.
  intros mu sg HM HS. pose proof (bd_moderate _ HM) as BM. pose proof (bd_moderate _ HS) as BS.
  pose proof (bd_pos _ _ BM) as PM. pose proof (bd_pos _ _ BS) as PS. unfold f_gamma_reported, f_gamma_from, f_gamma_to.
  pose proof (bd_mul _ _ _ _ BS BS) as BS2. pose proof (bd_mul _ _ _ _ BM BM) as BM2. cbn [Z.add Pos.add] in BS2, BM2.
  pose proof (bd_div _ _ _ _ BM2 BS2) as BA. pose proof (bd_div _ _ _ _ BM BS2) as BB. pose proof (bd_div _ _ _ _ BM BS) as BR.
  assert (S2 : rel 1 (sg * sg) (fsquare sg)) by (apply (fsquare_rel 0 400 sg); [apply (rel_bd_refl _ _ BS)|reflexivity|exact BS2|lia|lia]).
  assert (M2 : rel 1 (mu * mu) (fsquare mu)) by (apply (fsquare_rel 0 400 mu); [apply (rel_bd_refl _ _ BM)|reflexivity|exact BM2|lia|lia]).
  assert (A : rel 3 (mu * mu / (sg * sg)) (fdiv (fsquare mu) (fsquare sg)))
    by (apply (fdiv_rel 1 1 (400 + 400) (mu * mu) (sg * sg)); [exact M2|exact S2|apply (bd_pos _ _ BS2)|reflexivity|exact BA|lia|lia]).
  assert (B : rel 2 (mu / (sg * sg)) (fdiv mu (fsquare sg)))
    by (apply (fdiv_rel 0 1 (200 + 400) mu (sg * sg)); [apply (rel_bd_refl _ _ BM)|exact S2|apply (bd_pos _ _ BS2)|reflexivity|exact BB|lia|lia]).
  split.
  - apply rel_within with 6%nat; [lia|cbn; lra|].
    apply (fdiv_rel 3 2 200 (mu * mu / (sg * sg)) (mu / (sg * sg))); [exact A|exact B|apply (bd_pos _ _ BB)|field; lra|exact BM|lia|lia].
  - apply rel_within with 6%nat; [lia|cbn; lra|].
    apply (fdiv_rel 3 2 200 (mu / sg) (mu / (sg * sg))); [|exact B|apply (bd_pos _ _ BB)|field; lra|exact BS|lia|lia].
    apply (froot_rel 2 (200 + 200) (mu * mu / (sg * sg))); [apply (rel_weak 3 4); [lia|exact A]| |exact BR|lia|lia].
    replace (mu * mu / (sg * sg)) with ((mu / sg) * (mu / sg)) by (field; lra). apply sqrt_square. left. apply (bd_pos _ _ BR).
Qed.

(** Wald: phi is reported within 2.5 units of what was given, with mu or with lam. *)
Theorem C89_wald : forall a phi, moderate a -> moderate phi ->
  within (5 / 2) phi (f_wald_mu_phi a phi) /\ within (5 / 2) phi (f_wald_lam_phi a phi).
Proof.
  intros a phi HA HP. pose proof (bd_moderate _ HA) as BA. pose proof (bd_moderate _ HP) as BP.
  pose proof (bd_pos _ _ BA) as PA. pose proof (bd_pos _ _ BP) as PP. split; (apply rel_within with 2%nat; [lia|cbn; lra|]).
  - apply (fdiv_rel 1 0 200 (a * phi) a); [|apply (rel_bd_refl _ _ BA)|exact PA|field; lra|exact BP|lia|lia].
    apply (fmul_rel 0 0 (200 + 200) a phi); [apply (rel_bd_refl _ _ BA)|apply (rel_bd_refl _ _ BP)|reflexivity|apply bd_mul; assumption|lia|lia].
  - apply (fdiv_rel 0 1 200 a (a / phi)); [apply (rel_bd_refl _ _ BA)| |apply (bd_pos (200 + 200)); apply bd_div; assumption|field; lra|exact BP|lia|lia].
    apply (fdiv_rel 0 0 (200 + 200) a phi); [apply (rel_bd_refl _ _ BA)|apply (rel_bd_refl _ _ BP)|exact PP|reflexivity|apply bd_div; assumption|lia|lia].
Qed.

(** A precision tau is reported as tau / (1 + tau * eps), within 7.5 units: close to tau as long as tau * eps is small. *)
Theorem C89_precision : forall tau, moderate tau -> within (15 / 2) (tau / (1 + tau * f_eps)) (f_reported_precision tau).
Proof.
  intros tau H. pose proof (bd_moderate _ H) as B. pose proof (bd_pos _ _ B) as P. apply rel_within with 7%nat; [lia|cbn; lra|].
  assert (EB : bd 52 f_eps) by (unfold f_eps; split; [apply Rle_refl|apply bpow_le; lia]). pose proof (bd_pos _ _ EB) as EP.
  pose proof (bd_sqrt 200 tau ltac:(lia) B) as BR. pose proof (bd_inv _ _ BR) as BS. pose proof (bd_inv _ _ B) as BV.
  unfold f_reported_precision, f_from_precision, f_to_precision.
  assert (R1 : rel 1 (sqrt tau) (froot tau)) by (apply (froot_rel 0 200 tau); [apply (rel_bd_refl _ _ B)|reflexivity|exact BR|lia|lia]).
  assert (R2 : rel 2 (/ sqrt tau) (fdiv 1 (froot tau)))
    by (apply (fdiv_rel 0 1 200 1 (sqrt tau)); [apply (rel_bd_refl _ _ bd_1)|exact R1|apply (bd_pos _ _ BR)|unfold Rdiv; ring|exact BS|lia|lia]).
  assert (R3 : rel 5 (/ tau) (fsquare (fdiv 1 (froot tau)))).
  { apply (fsquare_rel 2 200 (/ sqrt tau)); [exact R2| |exact BV|lia|lia]. rewrite <- Rinv_mult, sqrt_sqrt by lra. reflexivity. }
  assert (R4 : rel 6 (f_eps + / tau) (fadd f_eps (fsquare (fdiv 1 (froot tau))))).
  { apply rel_fadd; [|apply double_bpow; lia|apply rnd_double]. apply rel_add; [|exact R3]. apply (rel_weak 0 5); [lia|]. apply (rel_bd_refl _ _ EB). }
  assert (BD : bd 201 (f_eps + / tau)).
  { rewrite Rplus_comm. apply (bd_add 200 (/ tau) f_eps BV). split; [lra|]. unfold f_eps. apply bpow_le. lia. }
  apply (fdiv_rel 0 6 201 1 (f_eps + / tau)); [apply (rel_bd_refl _ _ bd_1)|exact R4|apply (bd_pos _ _ BD)| | |lia|lia].
  - assert (0 < tau * f_eps) by (apply Rmult_lt_0_compat; assumption). field. repeat split; lra.
  - replace (tau / (1 + tau * f_eps)) with (/ (f_eps + / tau)); [apply bd_inv, BD|].
    assert (0 < tau * f_eps) by (apply Rmult_lt_0_compat; assumption). field. repeat split; lra.
Qed.
(** Not close otherwise: a precision of 1 / eps = 2^52 is reported as half of it. *)
Theorem C89_precision_refuted : f_reported_precision (bpow radix2 52) = bpow radix2 51.
Proof.
  assert (A : froot (bpow radix2 52) = bpow radix2 26).
  { unfold froot. change 52%Z with (26 + 26)%Z. rewrite bpow_plus, sqrt_square by apply bpow_ge_0. apply rnd_bpow. lia. }
  assert (B : fdiv 1 (bpow radix2 26) = bpow radix2 (-26)) by (unfold fdiv; rewrite inv_bpow; apply rnd_bpow; lia).
  assert (C : fsquare (bpow radix2 (-26)) = bpow radix2 (-52)) by (unfold fsquare; rewrite <- bpow_plus; apply rnd_bpow; lia).
  assert (D : fadd f_eps (bpow radix2 (-52)) = bpow radix2 (-51)).
  { unfold fadd, f_eps. replace (bpow radix2 (-52) + bpow radix2 (-52)) with (bpow radix2 (-52 + 1)); [apply rnd_bpow; lia|].
    rewrite bpow_plus. replace (bpow radix2 1) with 2 by (cbn; lra). ring. }
  unfold f_reported_precision, f_from_precision, f_to_precision. rewrite A, B, C, D. unfold fdiv. rewrite inv_bpow. apply rnd_bpow. lia.
Qed.

(** Beta(mu, nu) reports a mean within 5.5 units of mu, and a standard deviation within 11.5 units of that of the
    distribution. *)
Theorem C89_beta : forall mu nu, double mu -> double nu -> f_eps <= mu <= 1 - f_eps -> moderate nu ->
  let '(mu', sigma') := f_beta_reported mu nu in
  within (11 / 2) mu mu' /\ within (23 / 2) (sqrt (mu * (1 - mu) / (nu + 1))) sigma'.
Proof.
  intros mu nu DM DN HM HN. assert (EP : 0 < f_eps) by apply bpow_gt_0.
  assert (BM : bd 52 mu) by (split; [apply HM|apply Rle_trans with 1; [lra|apply (bpow_le radix2 0); lia]]).
  assert (BC : bd 52 (1 - mu)) by (split; [change (- (52))%Z with (-52)%Z; fold f_eps; lra|apply Rle_trans with 1; [lra|apply (bpow_le radix2 0); lia]]).
  pose proof (bd_moderate _ HN) as BN. pose proof (bd_pos _ _ BM) as PM. pose proof (bd_pos _ _ BC) as PC. pose proof (bd_pos _ _ BN) as PN.
  unfold f_beta_reported, f_beta_from, f_beta_to. cbv zeta.
  assert (C1 : rel 1 (1 - mu) (fsub 1 mu)).
  { change (fsub 1 mu) with (fadd 1 (- mu)). apply rel_fadd; [|apply double_1|apply double_opp, DM]. apply (rel_bd_refl _ _ BC). }
  pose proof (bd_mul _ _ _ _ BM BN) as BA. pose proof (bd_mul _ _ _ _ BC BN) as BB. cbn [Z.add Pos.add Pos.succ Pos.add_carry] in BA, BB.
  assert (A : rel 1 (mu * nu) (fmul mu nu)) by (apply (fmul_rel 0 0 252 mu nu); [apply (rel_bd_refl _ _ BM)|apply (rel_bd_refl _ _ BN)|reflexivity|exact BA|lia|lia]).
  assert (B : rel 2 ((1 - mu) * nu) (fmul (fsub 1 mu) nu)) by (apply (fmul_rel 1 0 252 (1 - mu) nu); [exact C1|apply (rel_bd_refl _ _ BN)|reflexivity|exact BB|lia|lia]).
  assert (T : rel 3 nu (fadd (fmul mu nu) (fmul (fsub 1 mu) nu))).
  { apply rel_fadd; [|apply rnd_double|apply rnd_double]. replace nu with (mu * nu + (1 - mu) * nu) at 1 by ring.
    apply rel_add; [apply (rel_weak 1 2); [lia|exact A]|exact B]. }
  set (al := fmul mu nu) in *. set (be := fmul (fsub 1 mu) nu) in *. set (t := fadd al be) in *.
  assert (BT : bd 201 (nu + 1)) by (apply (bd_add 200 nu 1 BN); split; [lra|apply (bpow_le radix2 0); lia]).
  pose proof (bd_pos _ _ BT) as PT. split.
  - apply rel_within with 5%nat; [lia|cbn; lra|].
    apply (fdiv_rel 1 3 52 (mu * nu) nu); [exact A|exact T|exact PN|field; lra|exact BM|lia|lia].
  - apply rel_within with 11%nat; [lia|cbn; lra|].
    assert (BV : bd 104 (mu * (1 - mu))) by exact (bd_mul _ _ _ _ BM BC).
    pose proof (bd_sqrt 104 _ ltac:(lia) BV) as BSV. pose proof (bd_sqrt 201 _ ltac:(lia) BT) as BST.
    assert (V1 : rel 4 (nu * nu * (mu * (1 - mu))) (fmul al be)).
    { apply (fmul_rel 1 2 (200 + 200 + 104) (mu * nu) ((1 - mu) * nu)); [exact A|exact B|ring| |lia|lia].
      apply bd_mul; [apply bd_mul; exact BN|exact BV]. }
    assert (V2 : rel 3 (nu * sqrt (mu * (1 - mu))) (froot (fmul al be))).
    { apply (froot_rel 2 (200 + 104) (nu * nu * (mu * (1 - mu)))); [exact V1| |apply bd_mul; assumption|lia|lia].
      rewrite sqrt_mult by (apply Rmult_le_pos; lra). rewrite sqrt_square by lra. reflexivity. }
    assert (V3 : rel 7 (sqrt (mu * (1 - mu))) (fdiv (froot (fmul al be)) t)).
    { apply (fdiv_rel 3 3 104 (nu * sqrt (mu * (1 - mu))) nu); [exact V2|exact T|exact PN|field; lra|exact BSV|lia|lia]. }
    assert (W1 : rel 4 (nu + 1) (fadd t 1)).
    { apply rel_fadd; [|apply rnd_double|apply double_1]. apply rel_add; [exact T|]. apply (rel_weak 0 3); [lia|]. apply (rel_bd_refl _ _ bd_1). }
    assert (W2 : rel 3 (sqrt (nu + 1)) (froot (fadd t 1))).
    { apply (froot_rel 2 201 (nu + 1)); [exact W1|reflexivity|exact BST|lia|lia]. }
    apply (fdiv_rel 7 3 (104 + 201) (sqrt (mu * (1 - mu))) (sqrt (nu + 1))); [exact V3|exact W2|apply (bd_pos _ _ BST)| | |lia|lia].
    + rewrite sqrt_div_alt by exact PT. reflexivity.
    + rewrite sqrt_div_alt by exact PT. apply bd_div; assumption.
Qed.

(** NegativeBinomial(p, n) reports n as it was given and a probability within 5.5 units of p. *)
Theorem C89_negativebinomial : forall n p, double n -> moderate n -> double p -> moderate p -> p <= 1 ->
  let '(n', p') := f_nb_reported n p in n' = n /\ within (11 / 2) p p'.
Proof.
  intros n p DN HN DP HP P1. pose proof (bd_moderate _ HN) as BN. pose proof (bd_moderate _ HP) as BP.
  pose proof (bd_pos _ _ BN) as PN. pose proof (bd_pos _ _ BP) as PP. pose proof (bd_inv _ _ BP) as BI.
  unfold f_nb_reported, f_nb_from, f_nb_to. split; [reflexivity|].
  assert (R1 : rel 1 (/ p) (fdiv 1 p)) by (apply (fdiv_rel 0 0 200 1 p); [apply (rel_bd_refl _ _ bd_1)|apply (rel_bd_refl _ _ BP)|exact PP|unfold Rdiv; ring|exact BI|lia|lia]).
  assert (R0 : 1 <= fdiv 1 p).
  { apply rnd_ge; [apply double_1|]. unfold Rdiv. rewrite Rmult_1_l. replace 1 with (/ 1) by field. apply Rinv_le_contravar; lra. }
  set (r := fdiv 1 p) in *.
  assert (M1 : rel 1 (r - 1) (fsub r 1)).
  { change (fsub r 1) with (fadd r (- 1)). apply rel_fadd; [apply rel_refl; lra|apply rnd_double|apply double_opp, double_1]. }
  assert (M2 : rel 2 (n * (r - 1)) (fmul n (fsub r 1))).
  { destruct (Req_dec r 1) as [E|NE].
    - unfold fsub, fmul. rewrite E, Rminus_diag_eq by reflexivity. rewrite rnd_0, Rmult_0_r, rnd_0. apply (rel_weak 0 2); [lia|]. apply rel_refl. lra.
    - assert (BR : bpow radix2 (-52) <= r - 1).
      { assert (SU : succ radix2 (FLT_exp (-1074) 53) 1 <= r).
        { apply succ_le_lt; [typeclasses eauto|apply double_1|apply rnd_double|lra]. }
        rewrite succ_eq_pos in SU by lra. change 1 with (bpow radix2 0) in SU at 2. rewrite ulp_bpow in SU.
        change (FLT_exp (-1074) 53 (0 + 1)) with (-52)%Z in SU. lra. }
      apply rel_rnd; [lia| |].
      + apply (rel_mul 0 1); [apply (rel_bd_refl _ _ BN)|exact M1].
      + apply Rle_trans with (bpow radix2 (-200 + -52)); [apply bpow_le; lia|]. rewrite bpow_plus.
        apply Rmult_le_compat; try apply bpow_ge_0; [apply BN|exact BR]. }
  assert (S1 : rel 4 (n / p) (fadd (fmul n (fsub r 1)) n)).
  { replace 4%nat with (1 + 3)%nat by lia. apply (rel_trans 1 3 _ (n * r)).
    - apply (rel_mul 0 1); [apply (rel_bd_refl _ _ BN)|exact R1].
    - apply rel_fadd; [|apply rnd_double|exact DN]. replace (n * r) with (n * (r - 1) + n) by ring.
      apply rel_add; [exact M2|]. apply (rel_weak 0 2); [lia|]. apply (rel_bd_refl _ _ BN). }
  apply rel_within with 5%nat; [lia|cbn; lra|].
  apply (fdiv_rel 0 4 200 n (n / p)); [apply (rel_bd_refl _ _ BN)|exact S1|apply (bd_pos (200 + 200)); apply bd_div; assumption|field; lra|exact BP|lia|lia].
Qed.
Lemma next_54 : fadd (bpow radix2 54) 1 = bpow radix2 54.
Proof.
  unfold fadd. apply Rle_antisym.
  - rewrite (rnd_is 2 4503599627370496) by lit. cbn. lra.
  - apply rnd_ge; [apply double_bpow; lia|lra].
Qed.
Lemma bpow_self e : fdiv (bpow radix2 e) (bpow radix2 e) = 1.
Proof. unfold fdiv, Rdiv. rewrite Rinv_r by (pose proof (bpow_gt_0 radix2 e); lra). apply rnd_1. Qed.
(** A Beta distribution that is far from symmetric reports a mean of 1; that mean gives back a distribution with beta = 0. *)
Theorem C89_beta_refuted : let mu := fst (f_beta_to (bpow radix2 54) 1) in mu = 1 /\ forall nu, snd (f_beta_from mu nu) = 0.
Proof.
  assert (A : fst (f_beta_to (bpow radix2 54) 1) = 1) by (unfold f_beta_to; cbv zeta; cbn [fst]; rewrite next_54; apply bpow_self).
  cbv zeta. rewrite A. split; [reflexivity|]. intro nu. cbn [f_beta_from snd]. unfold fsub, fmul. rewrite Rminus_diag_eq by reflexivity.
  rewrite rnd_0, Rmult_0_l. apply rnd_0.
Qed.
(** A NegativeBinomial distribution with alpha far above mu reports p = 1; that p gives back a distribution with mu = 0. *)
Theorem C89_negativebinomial_refuted : let p := snd (f_nb_to 1 (bpow radix2 54)) in p = 1 /\ forall n, fst (f_nb_from n p) = 0.
Proof.
  assert (A : snd (f_nb_to 1 (bpow radix2 54)) = 1).
  { cbn [f_nb_to snd]. unfold fadd. rewrite Rplus_comm. fold (fadd (bpow radix2 54) 1). rewrite next_54. apply bpow_self. }
  cbv zeta. rewrite A. split; [reflexivity|]. intro n. cbn [f_nb_from fst]. unfold fdiv, fsub, fmul. replace (1 / 1) with 1 by field.
  rewrite rnd_1, Rminus_diag_eq by reflexivity. rewrite rnd_0, Rmult_0_r. apply rnd_0.
Qed.
Example C89_applies : moderate 49 /\ moderate (/ 2) /\ double (/ 2) /\ f_eps <= / 2 <= 1 - f_eps /\ double (bpow radix2 5) /\ moderate (bpow radix2 5).
Proof.
  assert (M : forall e, (-200 <= e <= 200)%Z -> moderate (bpow radix2 e)) by (intros e H; split; apply bpow_le; lia).
  assert (M6 : moderate (bpow radix2 6)) by (apply M; lia). assert (M5 : moderate (bpow radix2 5)) by (apply M; lia).
  assert (M1 : moderate (bpow radix2 (-1))) by (apply M; lia).
  replace (bpow radix2 (-1)) with (/ 2) in M1 by (cbn; lra).
  split; [|split; [exact M1|split; [apply double_half|split; [|split; [apply double_bpow; lia|exact M5]]]]].
  - split; [apply Rle_trans with (1 := proj1 M5); cbn; lra|apply Rle_trans with (2 := proj2 M6); cbn; lra].
  - unfold f_eps. cbn. lra.
Qed.

Print Assumptions C89_exponential.
Print Assumptions C89_exponential_refuted.
Print Assumptions C89_gamma.
Print Assumptions C89_wald.
Print Assumptions C89_precision.
Print Assumptions C89_precision_refuted.
Print Assumptions C89_beta.
Print Assumptions C89_negativebinomial.
Print Assumptions C89_beta_refuted.
Print Assumptions C89_negativebinomial_refuted.
