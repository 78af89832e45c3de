(** Property theorems for preliz/internal/special.py: C43. *)
From Coq Require Import List Bool Reals Lra Lia Psatz.
From Verif Require Import Base RLists XR SpecialModel.
Import ListNotations.
Open Scope R_scope.

(* ---------------- specification ---------------- *)
(** The textbook functions. *)
Definition logistic (r : R) : R := / (1 + exp (- r)).
Definition log_odds (p : R) : R := ln p - ln (1 - p).
Definition mean_of (data : list R) : R := Rsum data / INR (length data).
Definition variance_of (data : list R) : R := Rsum (map (fun x => (x - mean_of data) ^ 2) data) / INR (length data).

(* ---------------- lemmas ---------------- *)
Lemma Reqb_true a b : a = b -> Reqb a b = true.
Proof. intro H. destruct (Reqb_spec a b); [reflexivity|contradiction]. Qed.
Lemma logistic_alt r : exp r / (1 + exp r) = logistic r.
Proof.
  unfold logistic. pose proof (exp_pos r). pose proof (exp_pos (- r)).
  assert (E : exp r * exp (- r) = 1) by (rewrite <- exp_plus, Rplus_opp_r; apply exp_0).
  apply (Rmult_eq_reg_r ((1 + exp r) * (1 + exp (- r)))); [|nra]. field_simplify; [|lra|lra]. nra.
Qed.
Lemma xexpit_fin r : xexpit (Fin r) = Fin (logistic r).
Proof.
  unfold xexpit. pose proof (exp_pos r). pose proof (exp_pos (- r)). destruct (xleb (Fin 0) (Fin r)).
  - cbn [xneg xexp xadd xdiv]. rewrite Reqb_false by lra. f_equal. unfold logistic. field. lra.
  - cbn [xneg xexp xadd xdiv]. rewrite Reqb_false by lra. f_equal. apply logistic_alt.
Qed.
Lemma xlogit_fin p : 0 < p < 1 -> xlogit (Fin p) = Fin (log_odds p).
Proof.
  intros [H0 H1]. unfold xlogit. cbn [xeqb xltb]. rewrite !Reqb_false by lra. rewrite !Rltb_false by lra. cbn [orb].
  unfold xsub. cbn [xneg xadd xdiv]. rewrite Reqb_false by lra. cbn [xlog].
  assert (P : 0 < p / (1 + - p)) by (apply Rdiv_lt_0_compat; lra). rewrite Rltb_true by exact P. f_equal. unfold log_odds.
  unfold Rdiv. rewrite ln_mult; [|lra|apply Rinv_0_lt_compat; lra]. rewrite ln_Rinv by lra. replace (1 + - p) with (1 - p) by ring. ring.
Qed.
Lemma logistic_range r : 0 < logistic r < 1.
Proof.
  unfold logistic. pose proof (exp_pos (- r)). split; [apply Rinv_0_lt_compat; lra|]. rewrite <- Rinv_1 at 2. apply Rinv_lt_contravar; lra.
Qed.
Lemma log_odds_logistic r : log_odds (logistic r) = r.
Proof.
  unfold log_odds. pose proof (logistic_range r). assert (E : 1 - logistic r = exp (- r) * logistic r).
  { unfold logistic. pose proof (exp_pos (- r)). field. lra. }
  rewrite E, ln_mult; [|apply exp_pos|lra]. rewrite ln_exp. ring.
Qed.
Lemma logistic_log_odds p : 0 < p < 1 -> logistic (log_odds p) = p.
Proof.
  intros [H0 H1]. unfold logistic, log_odds. replace (- (ln p - ln (1 - p))) with (ln (1 - p) + - ln p) by ring.
  rewrite exp_plus, exp_Ropp, !exp_ln by lra. field. lra.
Qed.

(* ---------------- C43 ---------------- *)
(** expit is the logistic function on every real: strictly between zero and one, and logit undoes it exactly. *)
Theorem C43_expit : forall r, exists p, xexpit (Fin r) = Fin p /\ p = logistic r /\ 0 < p < 1 /\ xlogit (Fin p) = Fin r.
Proof.
  intro r. exists (logistic r). split; [apply xexpit_fin|]. split; [reflexivity|]. pose proof (logistic_range r) as H. split; [exact H|].
  rewrite xlogit_fin by exact H. rewrite log_odds_logistic. reflexivity.
Qed.
(** logit is the log odds on (0, 1), and expit undoes it exactly. *)
Theorem C43_logit : forall p, 0 < p < 1 -> exists r, xlogit (Fin p) = Fin r /\ r = log_odds p /\ xexpit (Fin r) = Fin p.
Proof.
  intros p H. exists (log_odds p). split; [apply xlogit_fin, H|]. split; [reflexivity|]. rewrite xexpit_fin, logistic_log_odds by exact H. reflexivity.
Qed.
Example C43_applies : 0 < 1 / 4 < 1 /\ log_odds (1 / 2) = 0.
Proof. split; [lra|]. unfold log_odds. replace (1 - 1 / 2) with (1 / 2) by lra. ring. Qed.
(** At and beyond the ends: logit is -inf at 0, inf at 1 and nan everywhere outside [0, 1]; expit is 0 at -inf and 1 at inf;
    nan stays nan. *)
Theorem C43_ends : xlogit (Fin 0) = NInf /\ xlogit (Fin 1) = PInf /\ (forall x, xltb x (Fin 0) = true \/ xltb (Fin 1) x = true \/ x = NaN -> xlogit x = NaN) /\
  xexpit NInf = Fin 0 /\ xexpit PInf = Fin 1 /\ xexpit NaN = NaN.
Proof.
  split; [|split; [|split; [|split; [|split]]]].
  - unfold xlogit. cbn [xeqb]. rewrite Reqb_true by lra. reflexivity.
  - unfold xlogit. cbn [xeqb]. rewrite Reqb_false by lra. rewrite Reqb_true by lra. reflexivity.
  - intros [r| | |] H; try reflexivity. destruct H as [H|[H|H]]; [| |discriminate]; cbn [xltb] in H; unfold xlogit; cbn [xeqb xltb].
    + destruct (Rltb_spec r 0); [|discriminate]. rewrite !Reqb_false by lra. reflexivity.
    + destruct (Rltb_spec 1 r); [|discriminate]. rewrite !Reqb_false by lra. rewrite orb_true_r. reflexivity.
  - unfold xexpit. cbn. rewrite Reqb_false by lra. f_equal. lra.
  - unfold xexpit. cbn. rewrite Reqb_false by lra. f_equal. lra.
  - reflexivity.
Qed.
(** Both are strictly increasing, and symmetric around one half. *)
Theorem C43_monotone : forall a b va vb, xexpit (Fin a) = Fin va -> xexpit (Fin b) = Fin vb -> a < b -> va < vb.
Proof.
  intros a b va vb. rewrite !xexpit_fin. intros [= <-] [= <-] H. unfold logistic. pose proof (exp_pos (- a)). pose proof (exp_pos (- b)).
  pose proof (exp_increasing (- b) (- a) ltac:(lra)). apply Rinv_lt_contravar; nra.
Qed.
Theorem C43_symmetric : (forall r p, xexpit (Fin r) = Fin p -> xexpit (Fin (- r)) = Fin (1 - p)) /\
  (forall p r, 0 < p < 1 -> xlogit (Fin p) = Fin r -> xlogit (Fin (1 - p)) = Fin (- r)).
Proof.
  split.
  - intros r p. rewrite !xexpit_fin. intros [= <-]. f_equal. rewrite <- logistic_alt. unfold logistic. pose proof (exp_pos (- r)). field. lra.
  - intros p r H. rewrite !xlogit_fin by lra. intros [= <-]. f_equal. unfold log_odds. replace (1 - (1 - p)) with p by ring. ring.
Qed.
(** xlogx: x ln x on the positive reals, 0 at 0 and continuous there, nan for negative values. *)
Theorem C43_xlogx : xlogx (Fin 0) = Fin 0 /\ (forall x, 0 < x -> xlogx (Fin x) = Fin (x * ln x)) /\ (forall x, x < 0 -> xlogx (Fin x) = NaN) /\
  (forall e, 0 < e -> exists d, 0 < d /\ forall x, 0 <= x < d -> exists v, xlogx (Fin x) = Fin v /\ Rabs v < e).
Proof.
  assert (P : forall x, 0 < x -> xlogx (Fin x) = Fin (x * ln x)).
  { intros x H. unfold xlogx. cbn [xeqb]. rewrite Reqb_false by lra. cbn [xlog]. rewrite Rltb_true by exact H. reflexivity. }
  assert (Z : xlogx (Fin 0) = Fin 0) by (unfold xlogx; cbn [xeqb]; rewrite Reqb_true by lra; reflexivity).
  split; [exact Z|]. split; [exact P|]. split.
  - intros x H. unfold xlogx. cbn [xeqb]. rewrite Reqb_false by lra. cbn [xlog]. rewrite Rltb_false by lra. rewrite Reqb_false by lra. reflexivity.
  - intros e He. exists (Rmin 1 (e * e / 4)). split; [apply Rmin_glb_lt; nra|]. intros x [H0 H1].
    assert (X1 : x < 1) by (eapply Rlt_le_trans; [exact H1|apply Rmin_l]). assert (X2 : x < e * e / 4) by (eapply Rlt_le_trans; [exact H1|apply Rmin_r]).
    destruct (Req_dec x 0) as [->|N]; [exists 0; split; [exact Z|rewrite Rabs_R0; exact He]|]. assert (Hx : 0 < x) by lra.
    exists (x * ln x). split; [apply P, Hx|]. set (y := sqrt x). assert (Hy : 0 < y) by (apply sqrt_lt_R0, Hx). assert (E : x = y * y) by (unfold y; rewrite sqrt_sqrt; lra).
    assert (Ly : y < e / 2). { unfold y. rewrite <- (sqrt_square (e / 2)) by lra. apply sqrt_lt_1; [lra|nra|lra]. }
    assert (Y1 : y < 1). { unfold y. rewrite <- sqrt_1. apply sqrt_lt_1; lra. }
    assert (L1 : ln (/ y) <= / y - 1).
    { assert (0 < / y) by (apply Rinv_0_lt_compat, Hy). pose proof (exp_ineq1_le (ln (/ y))) as I. rewrite exp_ln in I by assumption. lra. }
    rewrite ln_Rinv in L1 by exact Hy. assert (L2 : ln y < 0) by (rewrite <- ln_1; apply ln_increasing; lra).
    assert (LX : ln x = 2 * ln y) by (rewrite E, ln_mult by exact Hy; ring). rewrite LX, E.
    rewrite Rabs_left by nra. assert (YY : y * / y = 1) by (field; lra). nra.
Qed.
(** xprody: the product of two numbers, and 0 as soon as one of them is infinite, whatever the other. *)
Theorem C43_xprody : (forall x y, xprody (Fin x) (Fin y) = Fin (x * y)) /\
  (forall x y, x = PInf \/ x = NInf \/ y = PInf \/ y = NInf -> xprody x y = Fin 0).
Proof.
  split; [reflexivity|]. intros x y [-> |[-> |[-> | ->]]]; try reflexivity; destruct x; reflexivity.
Qed.
(** mean_and_std gives the mean and the (population) standard deviation of the sample. *)
Lemma sum_sq_fold (m : R) data : forall acc, fold_left (fun acc x => acc + (x - m) ^ 2) data acc = acc + Rsum (map (fun x => (x - m) ^ 2) data).
Proof. induction data as [|x data IH]; intro acc; cbn [fold_left map]; [rewrite Rsum_nil; ring|]. rewrite IH, Rsum_cons. ring. Qed.
Lemma mean_and_std_is data : mean_and_std data = (mean_of data, sqrt (variance_of data)).
Proof. unfold mean_and_std, variance_of, mean_of. rewrite sum_sq_fold, Rplus_0_l. reflexivity. Qed.
Lemma len_pos (data : list R) : data <> [] -> 0 < INR (length data).
Proof. intro H. destruct data; [congruence|]. apply lt_0_INR. cbn. lia. Qed.
Lemma variance_nonneg data : data <> [] -> 0 <= variance_of data.
Proof.
  intro H. unfold variance_of. apply Rmult_le_pos; [|apply Rlt_le, Rinv_0_lt_compat, len_pos, H]. apply Rsum_nonneg. apply Forall_map, Forall_forall.
  intros x _. apply pow2_ge_0.
Qed.
Theorem C43_mean_and_std : forall data, data <> [] -> exists m s, mean_and_std data = (m, s) /\
  m * INR (length data) = Rsum data /\ 0 <= s /\ s ^ 2 * INR (length data) = Rsum (map (fun x => (x - m) ^ 2) data) /\
  (s = 0 <-> forall x, In x data -> x = m).
Proof.
  intros data H. exists (mean_of data), (sqrt (variance_of data)). split; [apply mean_and_std_is|]. pose proof (len_pos data H) as HL. pose proof (variance_nonneg data H) as HV.
  split; [unfold mean_of; field; lra|]. split; [apply sqrt_pos|]. split.
  - rewrite pow2_sqrt by exact HV. unfold variance_of. field. lra.
  - assert (Q : variance_of data = 0 <-> forall x, In x data -> x = mean_of data).
    { unfold variance_of. split; intro E.
      - assert (S : Rsum (map (fun x => (x - mean_of data) ^ 2) data) = 0).
        { apply (Rmult_eq_reg_r (/ INR (length data))); [|apply Rinv_neq_0_compat; lra]. rewrite Rmult_0_l. exact E. }
        intros x Hx. assert (A : (x - mean_of data) ^ 2 = 0).
        { apply (Rsum_zero_all (fun x => (x - mean_of data) ^ 2) data); [intros y _; apply pow2_ge_0|exact S|exact Hx]. }
        nra.
      - assert (S : Rsum (map (fun x => (x - mean_of data) ^ 2) data) = 0).
        { apply Rsum_map_zero. intros x Hx. rewrite <- (E x Hx). ring. }
        rewrite S. field. lra. }
    rewrite <- Q. split; intro E; [apply sqrt_eq_0; assumption|rewrite E; apply sqrt_0].
Qed.
(** Shifting and rescaling the sample shifts and rescales the mean, and rescales the standard deviation by the absolute
    value: the result does not depend on the units of the data. *)
Theorem C43_equivariant : forall data a b m s, data <> [] -> mean_and_std data = (m, s) -> mean_and_std (map (fun x => a + b * x) data) = (a + b * m, Rabs b * s).
Proof.
  intros data a b m s H. rewrite !mean_and_std_is. intros [= <- <-]. pose proof (len_pos data H) as HL.
  assert (M : mean_of (map (fun x => a + b * x) data) = a + b * mean_of data).
  { unfold mean_of. rewrite map_length. rewrite Rsum_map_plus. rewrite Rsum_map_scal. rewrite Rsum_map_const. rewrite ?map_id. field. lra. }
  f_equal; [exact M|]. assert (V : variance_of (map (fun x => a + b * x) data) = b ^ 2 * variance_of data).
  { unfold variance_of. rewrite M, map_length, map_map. rewrite (map_ext _ (fun x => b ^ 2 * (x - mean_of data) ^ 2)) by (intro; ring).
    rewrite Rsum_map_scal. field. lra. }
  rewrite V, sqrt_mult; [|apply pow2_ge_0|apply variance_nonneg, H]. replace (b ^ 2) with (Rsqr b) by (unfold Rsqr; ring). rewrite sqrt_Rsqr_abs. reflexivity.
Qed.
Example C43_mean_example : mean_and_std [1; 3] = (2, 1).
Proof.
  unfold mean_and_std. cbn [length fold_left INR]. rewrite !Rsum_cons, Rsum_nil. f_equal; [lra|].
  replace ((0 + (1 - (1 + (3 + 0)) / (1 + 1)) ^ 2 + (3 - (1 + (3 + 0)) / (1 + 1)) ^ 2) / (1 + 1)) with 1 by field. apply sqrt_1.
Qed.

Print Assumptions C43_xprody.
Print Assumptions C43_expit.
Print Assumptions C43_xlogx.
Print Assumptions C43_equivariant.
