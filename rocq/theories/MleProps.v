(** Property theorems for the closed-form maximum likelihood fits (C51) and the other closed-form sample fits (C52). *)
From Coq Require Import List Bool Reals ZArith Lra Lia Psatz Permutation Sorted.
From Verif Require Import Base RLists XR SpecialModel SpecProps MleModel GeoProps.
Import ListNotations.
Open Scope R_scope.

(* ---------------- specification ---------------- *)
(** The likelihood of a sample of independent draws. *)
Definition likelihood {A} (density : A -> R) (sample : list A) : R := fold_right Rmult 1 (map density sample).

(** Textbook densities and mass functions. *)
Definition normal_pdf (mu sigma x : R) : R := / (sigma * sqrt (2 * PI)) * exp (- (x - mu) ^ 2 / (2 * sigma ^ 2)).
Definition lognormal_pdf (mu sigma x : R) : R := / x * normal_pdf mu sigma (ln x).
Definition logitnormal_pdf (mu sigma x : R) : R := / (x * (1 - x)) * normal_pdf mu sigma (ln (x / (1 - x))).
Definition halfnormal_pdf (sigma x : R) : R := if Rltb x 0 then 0 else sqrt (2 / PI) / sigma * exp (- x ^ 2 / (2 * sigma ^ 2)).
Definition exponential_pdf (lam x : R) : R := if Rltb x 0 then 0 else lam * exp (- lam * x).
Definition laplace_pdf (mu b x : R) : R := / (2 * b) * exp (- Rabs (x - mu) / b).
Definition uniform_pdf (lower upper x : R) : R := if Rleb lower x && Rleb x upper then / (upper - lower) else 0.
Definition discrete_uniform_pmf (lower upper : Z) (k : Z) : R :=
  if (lower <=? k)%Z && (k <=? upper)%Z then / (IZR upper - IZR lower + 1) else 0.
Definition poisson_pmf (mu : R) (k : nat) : R := exp (- mu) * mu ^ k / INR (fact k).
Definition geometric_pmf (p : R) (k : nat) : R := match k with O => 0 | S j => (1 - p) ^ j * p end.

(* ---------------- lemmas ---------------- *)
Lemma likelihood_exp {A} (f g : A -> R) l : (forall x, In x l -> f x = exp (g x)) -> likelihood f l = exp (Rsum (map g l)).
Proof.
  unfold likelihood. induction l as [|x l IH]; intro H; [cbn [map fold_right]; rewrite Rsum_nil, exp_0; reflexivity|].
  cbn [map fold_right]. rewrite Rsum_cons, exp_plus, IH by (intros; apply H; right; assumption).
  rewrite (H x) by (left; reflexivity). reflexivity.
Qed.
Lemma likelihood_nonneg {A} (f : A -> R) l : (forall x, In x l -> 0 <= f x) -> 0 <= likelihood f l.
Proof.
  unfold likelihood. induction l as [|x l IH]; intro H; [cbn; lra|]. cbn [map fold_right].
  apply Rmult_le_pos; [apply H; left; reflexivity|apply IH; intros; apply H; right; assumption].
Qed.
Lemma likelihood_zero {A} (f : A -> R) l x : In x l -> f x = 0 -> likelihood f l = 0.
Proof.
  unfold likelihood. induction l as [|y l IH]; intros I E; [contradiction|]. cbn [map fold_right].
  destruct I as [->|I]; [rewrite E; ring|rewrite IH by assumption; ring].
Qed.
Lemma likelihood_le {A} (f g : A -> R) l : (forall x, In x l -> 0 <= f x <= g x) -> likelihood f l <= likelihood g l.
Proof.
  unfold likelihood. induction l as [|x l IH]; intro H; [cbn; lra|]. cbn [map fold_right].
  apply Rmult_le_compat; [apply H; left; reflexivity| |apply H; left; reflexivity|].
  - apply (likelihood_nonneg f l). intros y I. apply (H y). right; exact I.
  - apply IH. intros y I. apply H. right; exact I.
Qed.
Lemma exp_mono a b : a <= b -> exp a <= exp b.
Proof. intros [H| ->]; [left; apply exp_increasing; exact H|lra]. Qed.
Lemma ln_le_sub t : 0 < t -> ln t <= t - 1.
Proof. intro H. pose proof (exp_ineq1_le (ln t)) as I. rewrite exp_ln in I by exact H. lra. Qed.
(** The tangent of ln. *)
Lemma ln_tangent a b : 0 < a -> 0 < b -> ln a <= ln b + (a - b) / b.
Proof.
  intros A B. pose proof (ln_le_sub (a / b) ltac:(apply Rmult_lt_0_compat; [|apply Rinv_0_lt_compat]; lra)) as H.
  unfold Rdiv at 1 in H. rewrite ln_mult, ln_Rinv in H by (auto; apply Rinv_0_lt_compat; lra).
  replace ((a - b) / b) with (a / b - 1) by (field; lra). lra.
Qed.

(* ---------------- the normal family ---------------- *)
Lemma spread_about (data : list R) mu : data <> [] ->
  Rsum (map (fun x => (x - mu) ^ 2) data) = INR (length data) * (variance_of data + (mean_of data - mu) ^ 2).
Proof.
  intro N. pose proof (len_pos data N) as L. set (m := mean_of data).
  rewrite (map_ext _ (fun x => (x - m) ^ 2 + (2 * (m - mu) * x + ((mu ^ 2) - m ^ 2)))) by (intro; ring).
  rewrite Rsum_map_plus, Rsum_map_plus, Rsum_map_scal, Rsum_map_const, map_id. unfold variance_of. fold m.
  assert (E : Rsum data = m * INR (length data)) by (unfold m, mean_of; field; lra). rewrite E. field. lra.
Qed.
Definition normal_log (mu sigma x : R) : R := - ln sigma - ln (sqrt (2 * PI)) + - (x - mu) ^ 2 / (2 * sigma ^ 2).
Lemma normal_pdf_exp mu sigma x : 0 < sigma -> normal_pdf mu sigma x = exp (normal_log mu sigma x).
Proof.
  intro S. unfold normal_pdf, normal_log. pose proof PI_RGT_0.
  assert (Q : 0 < sqrt (2 * PI)) by (apply sqrt_lt_R0; lra).
  rewrite exp_plus. f_equal. unfold Rminus. rewrite exp_plus, !exp_Ropp, !exp_ln by assumption. apply Rinv_mult.
Qed.
Lemma normal_log_sum data mu sigma : data <> [] -> 0 < sigma ->
  Rsum (map (normal_log mu sigma) data) =
  INR (length data) * (- ln sigma - ln (sqrt (2 * PI)) - (variance_of data + (mean_of data - mu) ^ 2) / (2 * sigma ^ 2)).
Proof.
  intros N S. unfold normal_log. rewrite Rsum_map_plus, Rsum_map_const.
  rewrite (map_ext _ (fun x => - / (2 * sigma ^ 2) * (x - mu) ^ 2)) by (intro; field; lra).
  rewrite Rsum_map_scal, spread_about by exact N. field. lra.
Qed.
Lemma normal_best data mu sigma : data <> [] -> 0 < variance_of data -> 0 < sigma ->
  Rsum (map (normal_log mu sigma) data) <= Rsum (map (normal_log (mean_of data) (sqrt (variance_of data))) data).
Proof.
  intros N V S. pose proof (len_pos data N) as L. assert (Q : 0 < sqrt (variance_of data)) by (apply sqrt_lt_R0; exact V).
  rewrite !normal_log_sum by assumption. apply Rmult_le_compat_l; [lra|].
  set (v := variance_of data) in *. set (q := sqrt v) in *. assert (QQ : q ^ 2 = v) by (unfold q; apply pow2_sqrt; lra).
  replace (mean_of data - mean_of data) with 0 by ring. rewrite QQ.
  set (d := (mean_of data - mu) ^ 2). assert (D : 0 <= d) by (unfold d; apply pow2_ge_0).
  assert (S2 : 0 < sigma ^ 2) by nra.
  pose proof (ln_le_sub (v / sigma ^ 2) ltac:(apply Rmult_lt_0_compat; [exact V|apply Rinv_0_lt_compat; exact S2])) as T.
  unfold Rdiv at 1 in T. rewrite ln_mult, ln_Rinv in T by (auto; apply Rinv_0_lt_compat; exact S2).
  assert (E1 : ln v = 2 * ln q) by (rewrite <- QQ; cbn [pow]; rewrite Rmult_1_r, ln_mult by assumption; ring).
  assert (E2 : ln (sigma ^ 2) = 2 * ln sigma) by (cbn [pow]; rewrite Rmult_1_r, ln_mult by assumption; ring).
  replace ((v + 0 ^ 2) / (2 * v)) with (1 / 2) by (field; lra).
  replace ((v + d) / (2 * sigma ^ 2)) with (v / sigma ^ 2 / 2 + d / (2 * sigma ^ 2)) by (field; lra).
  assert (0 <= d / (2 * sigma ^ 2)) by (apply Rmult_le_pos; [exact D|left; apply Rinv_0_lt_compat; lra]). lra.
Qed.

(** Normal: no mean and standard deviation give the sample a higher likelihood. The sample must not be constant. *)
Theorem C51_normal : forall sample m s mu sigma, normal_mle sample = (m, s) -> 0 < s -> 0 < sigma -> sample <> [] ->
  likelihood (normal_pdf mu sigma) sample <= likelihood (normal_pdf m s) sample.
Proof.
  intros sample m s mu sigma E Ps S N. unfold normal_mle in E. rewrite mean_and_std_is in E. injection E as <- <-.
  rewrite (likelihood_exp _ _ sample (fun x _ => normal_pdf_exp mu sigma x S)).
  rewrite (likelihood_exp _ _ sample (fun x _ => normal_pdf_exp _ _ x Ps)). apply exp_mono, normal_best; auto.
  destruct (Rlt_le_dec 0 (variance_of sample)) as [|H]; [assumption|]. rewrite sqrt_neg_0 in Ps by exact H. lra.
Qed.
Lemma likelihood_split {A} (c : A -> R) (f : A -> R) l :
  likelihood (fun x => c x * f x) l = likelihood c l * likelihood f l.
Proof. unfold likelihood. induction l as [|x l IH]; cbn [map fold_right]; [ring|]. rewrite IH. ring. Qed.
Lemma likelihood_map {A B} (g : A -> B) (f : B -> R) l : likelihood (fun x => f (g x)) l = likelihood f (map g l).
Proof. unfold likelihood. rewrite map_map. reflexivity. Qed.
Theorem C51_lognormal : forall sample m s mu sigma, lognormal_mle sample = (m, s) -> 0 < s -> 0 < sigma -> sample <> [] ->
  Forall (fun x => 0 < x) sample ->
  likelihood (lognormal_pdf mu sigma) sample <= likelihood (lognormal_pdf m s) sample.
Proof.
  intros sample m s mu sigma E Ps S N F. unfold lognormal_pdf. rewrite !(likelihood_split (fun x => / x)).
  apply Rmult_le_compat_l.
  - apply likelihood_nonneg. intros x I. rewrite Forall_forall in F. left. apply Rinv_0_lt_compat, F, I.
  - rewrite !(likelihood_map ln). apply C51_normal; auto. destruct sample; [congruence|discriminate].
Qed.
Theorem C51_logitnormal : forall sample m s mu sigma, logitnormal_mle sample = (m, s) -> 0 < s -> 0 < sigma -> sample <> [] ->
  Forall (fun x => 0 < x < 1) sample ->
  likelihood (logitnormal_pdf mu sigma) sample <= likelihood (logitnormal_pdf m s) sample.
Proof.
  intros sample m s mu sigma E Ps S N F. unfold logitnormal_pdf. rewrite !(likelihood_split (fun x => / (x * (1 - x)))).
  apply Rmult_le_compat_l.
  - apply likelihood_nonneg. intros x I. rewrite Forall_forall in F. specialize (F x I). cbn in F.
    left. apply Rinv_0_lt_compat. nra.
  - rewrite !(likelihood_map (fun x => ln (x / (1 - x)))). apply C51_normal; auto. destruct sample; [congruence|discriminate].
Qed.
Example C51_normal_applies : exists m s, normal_mle [1; 3] = (m, s) /\ 0 < s.
Proof. exists 2, 1. split; [apply C43_mean_example|lra]. Qed.
(** A constant sample gives sigma = 0, outside the parameter's support. *)
Theorem C51_constant_refuted : forall c n m s, normal_mle (repeat c (S n)) = (m, s) -> m = c /\ s = 0.
Proof.
  intros c n m s E. destruct (C43_mean_and_std (repeat c (S n)) ltac:(discriminate)) as (m' & s' & E' & M & _ & _ & Z).
  unfold normal_mle in E. rewrite E in E'. injection E' as <- <-.
  assert (MC : m = c).
  { rewrite repeat_length in M. replace (Rsum (repeat c (S n))) with (c * INR (S n)) in M.
    - apply Rmult_eq_reg_r in M; [exact M|]. apply not_0_INR. lia.
    - clear. induction n as [|n IH]; [cbn [repeat]; rewrite Rsum_cons, Rsum_nil; cbn; ring|].
      change (repeat c (S (S n))) with (c :: repeat c (S n)). rewrite Rsum_cons, <- IH, (S_INR (S n)). ring. }
  split; [exact MC|]. apply Z. intros x I. apply repeat_spec in I. congruence.
Qed.

(* ---------------- half-normal ---------------- *)
Lemma np_mean_is l : np_mean l = mean_of l.
Proof. reflexivity. Qed.
Definition halfnormal_log (sigma x : R) : R := ln (sqrt (2 / PI)) - ln sigma + - x ^ 2 / (2 * sigma ^ 2).
Lemma halfnormal_exp sigma x : 0 < sigma -> 0 <= x -> halfnormal_pdf sigma x = exp (halfnormal_log sigma x).
Proof.
  intros S X. unfold halfnormal_pdf, halfnormal_log. rewrite Rltb_false by exact X. pose proof PI_RGT_0 as P.
  assert (Q : 0 < sqrt (2 / PI)) by (apply sqrt_lt_R0; apply Rmult_lt_0_compat; [lra|apply Rinv_0_lt_compat; lra]).
  rewrite exp_plus. f_equal. unfold Rminus, Rdiv at 1. rewrite exp_plus, exp_Ropp, !exp_ln by assumption. reflexivity.
Qed.
Lemma halfnormal_sum sigma data : data <> [] -> 0 < sigma -> Rsum (map (halfnormal_log sigma) data) =
  INR (length data) * (ln (sqrt (2 / PI)) - ln sigma - np_mean (map (fun x => x ^ 2) data) / (2 * sigma ^ 2)).
Proof.
  intros N S. pose proof (len_pos data N). unfold halfnormal_log. rewrite Rsum_map_plus, Rsum_map_const.
  rewrite (map_ext _ (fun x => - / (2 * sigma ^ 2) * x ^ 2)) by (intro; field; lra).
  rewrite Rsum_map_scal. unfold np_mean. rewrite map_length. field. lra.
Qed.
Theorem C51_halfnormal : forall sample sigma, sample <> [] -> Forall (fun x => 0 <= x) sample ->
  0 < halfnormal_mle sample -> 0 < sigma ->
  likelihood (halfnormal_pdf sigma) sample <= likelihood (halfnormal_pdf (halfnormal_mle sample)) sample.
Proof.
  intros sample sigma N F Ps S. rewrite Forall_forall in F. pose proof (len_pos sample N) as L.
  rewrite (likelihood_exp _ _ sample (fun x I => halfnormal_exp sigma x S (F x I))).
  rewrite (likelihood_exp _ _ sample (fun x I => halfnormal_exp _ x Ps (F x I))). apply exp_mono.
  rewrite !halfnormal_sum by assumption. apply Rmult_le_compat_l; [lra|]. unfold halfnormal_mle in *.
  set (v := np_mean (map (fun x => x ^ 2) sample)) in *. set (q := sqrt v) in *.
  assert (V : 0 < v). { destruct (Rlt_le_dec 0 v) as [|H]; [assumption|]. unfold q in Ps. rewrite sqrt_neg_0 in Ps by exact H. lra. }
  assert (QQ : q ^ 2 = v) by (unfold q; apply pow2_sqrt; lra). rewrite QQ. assert (S2 : 0 < sigma ^ 2) by nra.
  pose proof (ln_tangent v (sigma ^ 2) V S2) as T.
  assert (E1 : ln v = 2 * ln q) by (rewrite <- QQ; cbn [pow]; rewrite Rmult_1_r, ln_mult by assumption; ring).
  assert (E2 : ln (sigma ^ 2) = 2 * ln sigma) by (cbn [pow]; rewrite Rmult_1_r, ln_mult by assumption; ring).
  replace (v / (2 * v)) with (1 / 2) by (field; lra).
  replace ((v - sigma ^ 2) / sigma ^ 2) with (v / (2 * sigma ^ 2) * 2 - 1) in T by (field; lra). lra.
Qed.

(* ---------------- exponential ---------------- *)
Theorem C51_exponential : forall sample lam, sample <> [] -> Forall (fun x => 0 <= x) sample -> 0 < Rsum sample -> 0 < lam ->
  likelihood (exponential_pdf lam) sample <= likelihood (exponential_pdf (exponential_mle sample)) sample.
Proof.
  intros sample lam N F P L. rewrite Forall_forall in F. pose proof (len_pos sample N) as Ln.
  set (m := np_mean sample). assert (M : 0 < m) by (apply Rmult_lt_0_compat; [exact P|apply Rinv_0_lt_compat; exact Ln]).
  assert (ES : Rsum sample = m * INR (length sample)) by (unfold m, np_mean; field; lra).
  assert (EX : forall l x, 0 < l -> In x sample -> exponential_pdf l x = exp (ln l + - l * x)).
  { intros l x Hl I. unfold exponential_pdf. rewrite Rltb_false by (apply F; exact I). rewrite exp_plus, exp_ln by exact Hl. reflexivity. }
  unfold exponential_mle. fold m. assert (M' : 0 < 1 / m) by (apply Rmult_lt_0_compat; [lra|apply Rinv_0_lt_compat; exact M]).
  rewrite (likelihood_exp _ _ sample (fun x I => EX lam x L I)).
  rewrite (likelihood_exp _ _ sample (fun x I => EX _ x M' I)). apply exp_mono.
  rewrite !Rsum_map_plus, !Rsum_map_const, !Rsum_map_scal, !map_id, ES.
  pose proof (ln_tangent lam (1 / m) L M') as T.
  replace ((lam - 1 / m) / (1 / m)) with (lam * m - 1) in T by (field; lra).
  replace (- (1 / m) * (m * INR (length sample))) with (- INR (length sample)) by (field; lra). nra.
Qed.

(* ---------------- Poisson ---------------- *)
Lemma Rsum_INR_pos (ks : list nat) : 0 <= Rsum (map INR ks).
Proof. apply Rsum_nonneg. apply Forall_forall. intros x I. apply in_map_iff in I. destruct I as (k & <- & _). apply pos_INR. Qed.
Lemma pow_sum {A} (f : A -> nat) x l : fold_right Rmult 1 (map (fun k => x ^ f k) l) = x ^ (fold_right Nat.add 0%nat (map f l)).
Proof. induction l as [|k l IH]; [reflexivity|]. cbn [map fold_right]. rewrite IH, pow_add. reflexivity. Qed.
Lemma INR_total l : INR (fold_right Nat.add 0%nat l) = Rsum (map INR l).
Proof. induction l as [|k l IH]; [reflexivity|]. cbn [map fold_right]. rewrite Rsum_cons, <- IH. apply plus_INR. Qed.
Lemma prod_const {A} c (l : list A) : fold_right Rmult 1 (map (fun _ => c) l) = c ^ List.length l.
Proof. induction l as [|k l IH]; [reflexivity|]. cbn [map fold_right List.length pow]. rewrite IH. reflexivity. Qed.
Lemma poisson_likelihood mu ks : likelihood (poisson_pmf mu) ks =
  exp (- mu) ^ List.length ks * mu ^ (fold_right Nat.add 0%nat ks) * likelihood (fun k => / INR (fact k)) ks.
Proof.
  unfold likelihood, poisson_pmf. rewrite <- (map_id ks) at 3. rewrite <- (pow_sum (fun k => k)). rewrite <- prod_const.
  induction ks as [|k ks IH]; cbn [map fold_right]; [ring|]. rewrite IH. unfold Rdiv. ring.
Qed.
Lemma pow_exp a n : exp a ^ n = exp (INR n * a).
Proof. induction n as [|n IH]; [cbn [pow INR]; rewrite Rmult_0_l, exp_0; reflexivity|]. rewrite S_INR. cbn [pow].
  rewrite IH, <- exp_plus. f_equal. ring. Qed.
Lemma pow_as_exp x n : 0 < x -> x ^ n = exp (INR n * ln x).
Proof. intro H. rewrite <- pow_exp, exp_ln by exact H. reflexivity. Qed.
Theorem C51_poisson : forall ks mu, ks <> [] -> 0 <= mu ->
  likelihood (poisson_pmf mu) ks <= likelihood (poisson_pmf (poisson_mle (map INR ks))) ks.
Proof.
  intros ks mu N H. rewrite !poisson_likelihood. set (t := fold_right Nat.add 0%nat ks).
  assert (L : 0 < INR (List.length ks)) by (apply lt_0_INR; destruct ks; [congruence|cbn; lia]).
  assert (EM : poisson_mle (map INR ks) = INR t / INR (List.length ks)).
  { unfold poisson_mle, np_mean. rewrite map_length, <- INR_total. reflexivity. }
  rewrite EM. set (m := INR t / INR (List.length ks)).
  assert (C : 0 <= likelihood (fun k => / INR (fact k)) ks).
  { apply likelihood_nonneg. intros k _. left. apply Rinv_0_lt_compat, lt_0_INR, lt_O_fact. }
  apply Rmult_le_compat_r; [exact C|]. rewrite !pow_exp.
  destruct (Nat.eq_dec t 0) as [Z|Z].
  - unfold m. rewrite Z. cbn [pow INR]. rewrite !Rmult_1_r. apply exp_mono. unfold Rdiv. rewrite Rmult_0_l. nra.
  - assert (T : 0 < INR t) by (apply lt_0_INR; lia). assert (M : 0 < m) by (apply Rmult_lt_0_compat; [exact T|apply Rinv_0_lt_compat; exact L]).
    destruct (Req_dec mu 0) as [->|Z'].
    + rewrite pow_i by lia. rewrite Rmult_0_r. left. apply Rmult_lt_0_compat; [apply exp_pos|apply pow_lt; exact M].
    + assert (U : 0 < mu) by lra. rewrite (pow_as_exp mu), (pow_as_exp m), <- !exp_plus by assumption. apply exp_mono.
      pose proof (ln_tangent mu m U M) as G. assert (E : INR t = m * INR (List.length ks)) by (unfold m; field; lra). rewrite E.
      assert (G' : m * ln mu <= m * ln m + (mu - m)).
      { replace (mu - m) with (m * ((mu - m) / m)) by (field; lra). nra. }
      nra.
Qed.
Example C51_poisson_applies : poisson_mle (map INR [0%nat; 3%nat]) = 3 / 2.
Proof. unfold poisson_mle, np_mean. cbn [map List.length]. rewrite !Rsum_cons, Rsum_nil. cbn. lra. Qed.

(* ---------------- geometric ---------------- *)
Lemma geometric_likelihood p ks : Forall (fun k => 1 <= k)%nat ks -> likelihood (geometric_pmf p) ks =
  (1 - p) ^ (fold_right Nat.add 0%nat (map pred ks)) * p ^ List.length ks.
Proof.
  intro F. unfold likelihood. rewrite <- (pow_sum pred), <- prod_const.
  induction F as [|k ks K F IH]; cbn [map fold_right]; [ring|]. rewrite IH. destruct k as [|k]; [lia|]. cbn [geometric_pmf pred]. ring.
Qed.
Theorem C51_geometric : forall ks p, ks <> [] -> Forall (fun k => 1 <= k)%nat ks -> 0 < p <= 1 ->
  0 < geometric_mle (map INR ks) <= 1 /\
  likelihood (geometric_pmf p) ks <= likelihood (geometric_pmf (geometric_mle (map INR ks))) ks.
Proof.
  intros ks p N F P. rewrite !geometric_likelihood by exact F. set (t := fold_right Nat.add 0%nat (map pred ks)).
  set (n := List.length ks). assert (L : (0 < n)%nat) by (unfold n; destruct ks; [congruence|cbn; lia]).
  assert (LR : 0 < INR n) by (apply lt_0_INR; exact L). pose proof (pos_INR t) as T.
  assert (ET : Rsum (map INR ks) = INR t + INR n).
  { unfold t, n. rewrite INR_total, map_map. clear - F. induction F as [|k ks K F IH]; [cbn; lra|]. cbn [map List.length].
    rewrite !Rsum_cons, IH, S_INR. destruct k as [|k]; [lia|]. cbn [pred]. rewrite S_INR. lra. }
  assert (EM : geometric_mle (map INR ks) = INR n / (INR t + INR n)).
  { unfold geometric_mle, np_mean. rewrite map_length, ET. fold n. field. lra. }
  rewrite EM. set (q := INR n / (INR t + INR n)). 
  assert (Q : 0 < q <= 1).
  { unfold q. split; [apply Rmult_lt_0_compat; [exact LR|apply Rinv_0_lt_compat; lra]|].
    apply (Rmult_le_reg_r (INR t + INR n)); [lra|]. unfold Rdiv. rewrite Rmult_assoc, Rinv_l by lra. lra. }
  split; [exact Q|]. destruct (Nat.eq_dec t 0) as [Z|Z].
  - assert (Q1 : q = 1) by (unfold q; rewrite Z; cbn [INR]; field; lra). rewrite Q1, Z. cbn [pow]. rewrite !Rmult_1_l, pow1.
    rewrite <- (pow1 n). apply pow_incr. lra.
  - assert (TP : 0 < INR t) by (apply lt_0_INR; lia).
    assert (Q1 : 1 - q = INR t / (INR t + INR n)) by (unfold q; field; lra).
    assert (Q2 : 0 < 1 - q) by (rewrite Q1; apply Rmult_lt_0_compat; [exact TP|apply Rinv_0_lt_compat; lra]).
    destruct (Req_dec p 1) as [->|NP].
    + replace (1 - 1) with 0 by ring. rewrite pow_i by lia. rewrite Rmult_0_l. apply Rmult_le_pos; apply pow_le; lra.
    + rewrite !(pow_as_exp (1 - p)), !(pow_as_exp (1 - q)), (pow_as_exp p), (pow_as_exp q) by lra. rewrite <- !exp_plus. apply exp_mono.
      pose proof (ln_tangent (1 - p) (1 - q) ltac:(lra) Q2) as A. pose proof (ln_tangent p q ltac:(lra) ltac:(lra)) as B.
      apply (Rmult_le_compat_l (INR t)) in A; [|lra]. apply (Rmult_le_compat_l (INR n)) in B; [|lra].
      assert (Y : INR t / (1 - q) = INR t + INR n) by (rewrite Q1; field; lra).
      replace (INR t * (ln (1 - q) + (1 - p - (1 - q)) / (1 - q))) with (INR t * ln (1 - q) + (INR t + INR n) * (q - p)) in A
        by (rewrite <- Y; field; lra).
      replace (INR n * (ln q + (p - q) / q)) with (INR n * ln q + (INR t + INR n) * (p - q)) in B by (unfold q; field; lra).
      lra.
Qed.

(* ---------------- uniform ---------------- *)
Lemma fold_min l : forall h, let m := fold_left Rmin l h in In m (h :: l) /\ forall x, In x (h :: l) -> m <= x.
Proof.
  induction l as [|y l IH]; intro h; cbn [fold_left].
  - split; [left; reflexivity|]. intros x [->|[]]; lra.
  - destruct (IH (Rmin h y)) as [A B]. split.
    + destruct A as [A|A]; [|right; right; exact A]. unfold Rmin in A at 1. destruct (Rle_dec h y); [left|right; left]; exact A.
    + pose proof (B _ (or_introl eq_refl)) as C. pose proof (Rmin_l h y). pose proof (Rmin_r h y).
      intros x [->|[->|I]]; [lra|lra|apply B; right; exact I].
Qed.
Lemma fold_max l : forall h, let m := fold_left Rmax l h in In m (h :: l) /\ forall x, In x (h :: l) -> x <= m.
Proof.
  induction l as [|y l IH]; intro h; cbn [fold_left].
  - split; [left; reflexivity|]. intros x [->|[]]; lra.
  - destruct (IH (Rmax h y)) as [A B]. split.
    + destruct A as [A|A]; [|right; right; exact A]. unfold Rmax in A at 1. destruct (Rle_dec h y); [right; left|left]; exact A.
    + pose proof (B _ (or_introl eq_refl)) as C. pose proof (Rmax_l h y). pose proof (Rmax_r h y).
      intros x [->|[->|I]]; [lra|lra|apply B; right; exact I].
Qed.
Lemma np_min_spec l m : np_min l = Ok m -> In m l /\ forall x, In x l -> m <= x.
Proof. destruct l as [|h l]; [discriminate|]. cbn [np_min]. intros [= <-]. apply fold_min. Qed.
Lemma np_max_spec l m : np_max l = Ok m -> In m l /\ forall x, In x l -> x <= m.
Proof. destruct l as [|h l]; [discriminate|]. cbn [np_max]. intros [= <-]. apply fold_max. Qed.
Lemma uniform_mle_spec l a b : uniform_mle l = Ok (a, b) -> In a l /\ In b l /\ forall x, In x l -> a <= x <= b.
Proof.
  unfold uniform_mle. destruct (np_min l) as [m|] eqn:E1; [|discriminate]. cbn [bind].
  destruct (np_max l) as [M|] eqn:E2; [|discriminate]. cbn [bind]. intros [= <- <-].
  apply np_min_spec in E1. apply np_max_spec in E2. intuition.
Qed.
Theorem C51_uniform : forall sample lower upper a b, uniform_mle sample = Ok (lower, upper) -> lower < upper -> a < b ->
  likelihood (uniform_pdf a b) sample <= likelihood (uniform_pdf lower upper) sample.
Proof.
  intros sample lower upper a b E LU AB. apply uniform_mle_spec in E. destruct E as (Il & Iu & B).
  assert (NN : 0 <= likelihood (uniform_pdf lower upper) sample).
  { apply likelihood_nonneg. intros x _. unfold uniform_pdf. destruct (_ && _); [left; apply Rinv_0_lt_compat; lra|lra]. }
  destruct (Rle_lt_dec a lower) as [A1|A1].
  2:{ rewrite (likelihood_zero _ _ lower Il); [exact NN|]. unfold uniform_pdf. destruct (Rleb_spec a lower); [lra|reflexivity]. }
  destruct (Rle_lt_dec upper b) as [A2|A2].
  2:{ rewrite (likelihood_zero _ _ upper Iu); [exact NN|]. unfold uniform_pdf. destruct (Rleb_spec upper b); [lra|]. rewrite andb_false_r. reflexivity. }
  apply likelihood_le. intros x I. specialize (B x I). unfold uniform_pdf.
  destruct (Rleb_spec a x); [|lra]. destruct (Rleb_spec x b); [|lra].
  destruct (Rleb_spec lower x); [|lra]. destruct (Rleb_spec x upper); [|lra]. cbn [andb].
  split; [left; apply Rinv_0_lt_compat; lra|]. apply Rinv_le_contravar; lra.
Qed.
Example C51_uniform_applies : exists a b, uniform_mle [2; 5; 3] = Ok (a, b) /\ a < b.
Proof.
  unfold uniform_mle. cbn [np_min np_max bind fold_left]. do 2 eexists. split; [reflexivity|].
  rewrite (Rmin_left 2 5), (Rmin_left 2 3), (Rmax_right 2 5), (Rmax_left 5 3) by lra. lra.
Qed.
Theorem C51_discrete_uniform : forall ks, ks <> [] -> exists lower upper,
  discrete_uniform_mle (map IZR ks) = Ok (IZR lower, IZR upper) /\ (lower <= upper)%Z /\
  forall a b, (a <= b)%Z ->
    likelihood (discrete_uniform_pmf a b) ks <= likelihood (discrete_uniform_pmf lower upper) ks.
Proof.
  intros ks N. assert (X : exists a b, uniform_mle (map IZR ks) = Ok (a, b)).
  { destruct ks as [|k ks]; [congruence|]. do 2 eexists. reflexivity. }
  destruct X as (ra & rb & E). pose proof (uniform_mle_spec _ _ _ E) as (Il & Iu & B).
  apply in_map_iff in Il. destruct Il as (lower & <- & Il). apply in_map_iff in Iu. destruct Iu as (upper & <- & Iu).
  assert (BZ : forall k, In k ks -> (lower <= k <= upper)%Z).
  { intros k I. destruct (B (IZR k) (in_map IZR _ _ I)) as [B1 B2]. apply le_IZR in B1. apply le_IZR in B2. lia. }
  exists lower, upper. split; [exact E|]. pose proof (BZ _ Il) as BL. split; [lia|]. intros a b AB.
  assert (LU : IZR lower <= IZR upper) by (apply IZR_le; lia). assert (ABR : IZR a <= IZR b) by (apply IZR_le; lia).
  assert (NN : 0 <= likelihood (discrete_uniform_pmf lower upper) ks).
  { apply likelihood_nonneg. intros x _. unfold discrete_uniform_pmf. destruct (_ && _); [left; apply Rinv_0_lt_compat; lra|lra]. }
  destruct (Z_le_gt_dec a lower) as [A1|A1].
  2:{ rewrite (likelihood_zero _ _ lower Il); [exact NN|]. unfold discrete_uniform_pmf. destruct (Z.leb_spec a lower); [lia|reflexivity]. }
  destruct (Z_le_gt_dec upper b) as [A2|A2].
  2:{ rewrite (likelihood_zero _ _ upper Iu); [exact NN|]. unfold discrete_uniform_pmf. destruct (Z.leb_spec upper b); [lia|]. rewrite andb_false_r. reflexivity. }
  apply IZR_le in A1. apply IZR_le in A2.
  apply likelihood_le. intros x I. specialize (BZ x I). unfold discrete_uniform_pmf.
  apply le_IZR in A1. apply le_IZR in A2.
  destruct (Z.leb_spec a x); [|lia]. destruct (Z.leb_spec x b); [|lia].
  destruct (Z.leb_spec lower x); [|lia]. destruct (Z.leb_spec x upper); [|lia]. cbn [andb].
  apply IZR_le in A1. apply IZR_le in A2.
  split; [left; apply Rinv_0_lt_compat; lra|]. apply Rinv_le_contravar; lra.
Qed.

(* ---------------- Laplace ---------------- *)
Lemma Rsum_const_le (l : list R) d : Forall (fun x => d <= x) l -> INR (List.length l) * d <= Rsum l.
Proof.
  induction 1 as [|x l H F IH]; [cbn [List.length INR]; rewrite Rsum_nil; lra|]. rewrite Rsum_cons. cbn [List.length]. rewrite S_INR. lra.
Qed.
Lemma halves (s : list R) (k : nat) (g : R -> R) d : (k <= List.length s)%nat -> 0 <= d ->
  (forall i, (i < k)%nat -> d <= g (nth i s 0)) -> (forall i, (k <= i < List.length s)%nat -> - d <= g (nth i s 0)) ->
  (List.length s - k <= k)%nat -> 0 <= Rsum (map g s).
Proof.
  intros K D A B H. rewrite <- (firstn_skipn k s), map_app, Rsum_app.
  assert (P1 : INR (List.length (map g (firstn k s))) * d <= Rsum (map g (firstn k s))).
  { apply Rsum_const_le. apply Forall_forall. intros y I. apply in_map_iff in I. destruct I as (x & <- & I).
    apply (In_nth _ _ 0) in I. destruct I as (i & Hi & <-). rewrite firstn_length_le in Hi by exact K.
    specialize (A i Hi). replace (nth i (firstn k s) 0) with (nth i s 0); [exact A|].
    rewrite <- (firstn_skipn k s) at 1. apply app_nth1. rewrite firstn_length_le; lia. }
  assert (P2 : INR (List.length (map g (skipn k s))) * - d <= Rsum (map g (skipn k s))).
  { apply Rsum_const_le. apply Forall_forall. intros y I. apply in_map_iff in I. destruct I as (x & <- & I).
    apply (In_nth _ _ 0) in I. destruct I as (i & Hi & <-). rewrite skipn_length in Hi.
    specialize (B (k + i)%nat ltac:(lia)). replace (nth i (skipn k s) 0) with (nth (k + i) s 0); [exact B|].
    rewrite <- (firstn_skipn k s) at 1. rewrite app_nth2 by (rewrite firstn_length_le; lia). rewrite firstn_length_le by exact K.
    f_equal. lia. }
  rewrite map_length in P1, P2. rewrite firstn_length_le in P1 by exact K. rewrite skipn_length in P2.
  assert (INR (List.length s - k) <= INR k) by (apply le_INR; exact H). nra.
Qed.
Lemma asc_nth s : StronglySorted Rle s -> forall i j, (i <= j < List.length s)%nat -> nth i s 0 <= nth j s 0.
Proof.
  induction 1 as [|x s S IH F]; intros i j H; [cbn in H; lia|]. destruct i as [|i], j as [|j]; [cbn; lra| |lia|].
  - cbn [nth]. rewrite Forall_forall in F. apply F. apply nth_In. cbn in H; lia.
  - cbn [nth]. apply IH. cbn in H; lia.
Qed.
Lemma median_best sort l c : sorts sort -> l <> [] ->
  Rsum (map (fun x => Rabs (x - np_median sort l)) l) <= Rsum (map (fun x => Rabs (x - c)) l).
Proof.
  intros HS N. destruct (HS l) as [P S]. set (s := sort l) in *.
  assert (PS : forall f, Rsum (map f l) = Rsum (map f s)) by (intro f; apply Rsum_perm, Permutation_map, Permutation_sym, P).
  rewrite !PS. assert (LS : List.length s = List.length l) by (apply Permutation_length; exact P).
  set (n := List.length l) in *. assert (LN : (0 < n)%nat) by (unfold n; destruct l; [congruence|cbn; lia]).
  set (m := np_median sort l). pose proof (Nat.div_mod n 2 ltac:(lia)) as DM. pose proof (Nat.mod_upper_bound n 2 ltac:(lia)) as MB.
  assert (M : nth ((n - 1) / 2) s 0 <= m <= nth (n / 2) s 0 /\ ((n - 1) / 2 <= n / 2)%nat /\ (n - ((n - 1) / 2 + 1) <= (n - 1) / 2 + 1)%nat).
  { unfold m, np_median. fold s n. destruct (Nat.odd n) eqn:O.
    - apply Nat.odd_spec in O. destruct O as [j J]. replace (n / 2)%nat with j by (rewrite J; apply (Nat.div_unique _ _ _ 1); lia).
      replace ((n - 1) / 2)%nat with j by (rewrite J; apply (Nat.div_unique _ _ _ 0); lia). split; [lra|lia].
    - assert (EV : Nat.even n = true) by (rewrite <- Nat.negb_odd, O; reflexivity). apply Nat.even_spec in EV. destruct EV as [j J].
      assert (J0 : (0 < j)%nat) by lia.
      replace (n / 2)%nat with j by (rewrite J; apply (Nat.div_unique _ _ _ 0); lia).
      replace ((n - 1) / 2)%nat with (j - 1)%nat by (rewrite J; apply (Nat.div_unique _ _ _ 1); lia).
      pose proof (asc_nth s S (j - 1) j ltac:(lia)). split; [lra|lia]. }
  destruct M as (M & H1 & H2). set (a := ((n - 1) / 2)%nat) in *. set (b := (n / 2)%nat) in *.
  assert (Ha : (a < n)%nat) by (unfold a; apply Nat.div_lt_upper_bound; lia).
  assert (Hb : (b < n)%nat) by (unfold b; apply Nat.div_lt_upper_bound; lia).
  assert (D : 0 <= Rsum (map (fun x => Rabs (x - c) - Rabs (x - m)) s)).
  { destruct (Rle_dec m c) as [C|C].
    - apply (halves s (a + 1) (fun x => Rabs (x - c) - Rabs (x - m)) (c - m)); [lia|lra| | |lia].
      + intros i Hi. pose proof (asc_nth s S i a ltac:(lia)). rewrite (Rabs_left1 (nth i s 0 - c)), (Rabs_left1 (nth i s 0 - m)) by lra. lra.
      + intros i Hi. unfold Rabs. destruct (Rcase_abs (nth i s 0 - c)), (Rcase_abs (nth i s 0 - m)); lra.
    - assert (PR : forall f, Rsum (map f s) = Rsum (map f (rev s))) by (intro f; apply Rsum_perm, Permutation_map, Permutation_rev).
      rewrite PR. apply (halves (rev s) (n - b) (fun x => Rabs (x - c) - Rabs (x - m)) (m - c)); rewrite ?rev_length; [lia|lra| | |].
      + intros i Hi. rewrite rev_nth by lia. pose proof (asc_nth s S b (List.length s - Datatypes.S i) ltac:(lia)).
        rewrite (Rabs_right (_ - c)), (Rabs_right (_ - m)) by lra. lra.
      + intros i Hi. unfold Rabs. destruct (Rcase_abs (nth i (rev s) 0 - c)), (Rcase_abs (nth i (rev s) 0 - m)); lra.
      + unfold b. lia. }
  assert (E : Rsum (map (fun x => Rabs (x - c) - Rabs (x - m)) s) = Rsum (map (fun x => Rabs (x - c)) s) - Rsum (map (fun x => Rabs (x - m)) s)).
  { apply Rsum_map_minus. }
  fold m. lra.
Qed.
(** Laplace: location the median, scale the mean absolute deviation from it. *)
Theorem C51_laplace : forall sort sample m s mu b, sorts sort -> laplace_mle sort sample = (m, s) -> 0 < s -> 0 < b -> sample <> [] ->
  likelihood (laplace_pdf mu b) sample <= likelihood (laplace_pdf m s) sample.
Proof.
  intros sort sample m s mu b HS E Ps B N. unfold laplace_mle in E. injection E as Em Es. rewrite Em in Es.
  pose proof (len_pos sample N) as L.
  assert (EX : forall u v x, 0 < v -> laplace_pdf u v x = exp (- ln (2 * v) + - / v * Rabs (x - u))).
  { intros u v x V. unfold laplace_pdf. rewrite exp_plus, exp_Ropp, exp_ln by lra. f_equal. f_equal. unfold Rdiv. ring. }
  rewrite (likelihood_exp _ _ sample (fun x _ => EX mu b x B)). rewrite (likelihood_exp _ _ sample (fun x _ => EX m s x Ps)).
  apply exp_mono. rewrite !Rsum_map_plus, !Rsum_map_const, !Rsum_map_scal.
  pose proof (median_best sort sample mu HS N) as MB. rewrite Em in MB.
  set (d := Rsum (map (fun x => Rabs (x - m)) sample)) in *. set (e := Rsum (map (fun x => Rabs (x - mu)) sample)) in *.
  assert (ED : d = s * INR (length sample)) by (rewrite <- Es; field; lra).
  pose proof (ln_tangent (2 * s) (2 * b) ltac:(lra) ltac:(lra)) as T.
  replace ((2 * s - 2 * b) / (2 * b)) with (s * / b - 1) in T by (field; lra).
  assert (IB : 0 < / b) by (apply Rinv_0_lt_compat; exact B).
  assert (X : - / s * d = - INR (length sample)) by (rewrite ED; field; lra). rewrite X.
  assert (Y : / b * (s * INR (length sample)) <= / b * e) by (apply Rmult_le_compat_l; lra). nra.
Qed.
Example C51_laplace_applies : exists m s, laplace_mle isort [0; 4] = (m, s) /\ m = 2 /\ s = 2.
Proof.
  assert (A : isort [0; 4] = [0; 4]) by (cbn; destruct (Rleb_spec 0 4); [reflexivity|lra]).
  do 2 eexists. split; [reflexivity|]. unfold np_median. cbn [List.length Nat.odd Nat.even negb]. rewrite A. cbn [Nat.div Nat.divmod fst Nat.sub nth].
  split; [lra|]. cbn [map]. rewrite !Rsum_cons, Rsum_nil. replace ((0 + 4) / 2) with 2 by lra.
  rewrite (Rabs_left1 (0 - 2)), (Rabs_right (4 - 2)) by lra. cbn. lra.
Qed.

(* ---------------- C52: sample fits that are not maximum likelihood ---------------- *)
(** Triangular: the ends are the extremes of the sample and the mean of the fitted distribution, (a + c + b) / 3, is the
    mean of the sample. *)
Theorem C52_triangular : forall sample lower middle upper, triangular_mle sample = Ok (lower, middle, upper) ->
  In lower sample /\ In upper sample /\ (forall x, In x sample -> lower <= x <= upper) /\
  (lower + middle + upper) / 3 = mean_of sample.
Proof.
  intros sample lower middle upper E. unfold triangular_mle in E.
  destruct (np_min sample) as [a|] eqn:E1; [|discriminate]. destruct (np_max sample) as [b|] eqn:E2; [|discriminate].
  cbn [bind] in E. injection E as <- <- <-. apply np_min_spec in E1. apply np_max_spec in E2.
  split; [apply E1|]. split; [apply E2|]. split; [intros x I; split; [apply E1, I|apply E2, I]|]. rewrite np_mean_is. field.
Qed.
(** The mode need not lie between the ends. *)
Theorem C52_triangular_refuted : exists lower middle upper,
  triangular_mle [0; 0; 0; 1] = Ok (lower, middle, upper) /\ middle < lower /\ lower < upper.
Proof.
  unfold triangular_mle. cbn [np_min np_max bind fold_left]. do 3 eexists. split; [reflexivity|].
  rewrite !(Rmin_left 0 0), (Rmin_left 0 1), !(Rmax_left 0 0), (Rmax_right 0 1) by lra.
  unfold np_mean. cbn [List.length]. rewrite !Rsum_cons, Rsum_nil. rewrite INR_IZR_INZ. cbn [Z.of_nat Pos.of_succ_nat Pos.succ]. lra.
Qed.

(** Binomial: the number of trials is an integer and the mean of the fitted distribution is the mean of the sample. *)
Theorem C52_binomial : forall sample n p, binomial_mle sample = Ok (n, p) ->
  (exists z, n = IZR z) /\ n * p = mean_of sample.
Proof.
  intros sample n p E. unfold binomial_mle in E. rewrite mean_and_std_is in E. destruct (np_max sample) as [M|]; [|discriminate].
  cbn [bind] in E. destruct (Reqb _ 0); [discriminate|]. destruct (Reqb_spec (IZR (- Int_part (- (Rpower M 1.5 * sqrt (variance_of sample) / (sqrt (mean_of sample) * sqrt (M - mean_of sample)))))) 0) as [|N]; [discriminate|].
  injection E as <- <-. split; [eexists; reflexivity|]. field. exact N.
Qed.
(** The number of trials can be smaller than an observation, and the probability larger than one. *)
Lemma var_3334 : mean_and_std [3; 3; 3; 4] = (13 / 4, sqrt (3 / 16)).
Proof.
  unfold mean_and_std. cbn [length fold_left]. rewrite !Rsum_cons, Rsum_nil, INR_IZR_INZ. cbn [Z.of_nat Pos.of_succ_nat Pos.succ].
  f_equal; [lra|]. f_equal. lra.
Qed.
(** The sample 3, 3, 3, 4 gives a Binomial with fewer than 4 trials and a probability above one. *)
Theorem C52_binomial_refuted : exists n p, binomial_mle [3; 3; 3; 4] = Ok (n, p) /\ n < 4 /\ 1 < p.
Proof.
  unfold binomial_mle. rewrite var_3334. cbn [np_max bind fold_left]. rewrite !(Rmax_left 3 3), (Rmax_right 3 4) by lra.
  replace (4 - 13 / 4) with (3 / 4) by lra.
  assert (A : 0 < sqrt (13 / 4)) by (apply sqrt_lt_R0; lra). assert (B : 0 < sqrt (3 / 4)) by (apply sqrt_lt_R0; lra).
  rewrite Reqb_false by nra.
  assert (P8 : Rpower 4 1.5 = 8).
  { replace 1.5 with (1 + / 2) by lra. rewrite Rpower_plus, Rpower_1, Rpower_sqrt by lra.
    replace 4 with (2 * 2) at 2 by lra. rewrite sqrt_square by lra. lra. }
  assert (S : sqrt (3 / 16) = sqrt (3 / 4) / 2).
  { replace (3 / 16) with ((3 / 4) * (/ 2 * / 2)) by lra. rewrite sqrt_mult, (sqrt_square (/ 2)) by lra. lra. }
  assert (V : Rpower 4 1.5 * sqrt (3 / 16) / (sqrt (13 / 4) * sqrt (3 / 4)) = 4 / sqrt (13 / 4)).
  { rewrite P8, S. field. lra. }
  rewrite V. assert (AA : sqrt (13 / 4) * sqrt (13 / 4) = 13 / 4) by (apply sqrt_sqrt; lra). set (a := sqrt (13 / 4)) in *.
  assert (B1 : 2 < 4 / a < 3).
  { split; apply (Rmult_lt_reg_r a); try exact A; unfold Rdiv; rewrite Rmult_assoc, Rinv_l by lra; nra. }
  assert (E : Int_part (- (4 / a)) = (-3)%Z).
  { unfold Int_part. rewrite <- (tech_up (- (4 / a)) (-2)); [reflexivity|lra|lra]. }
  rewrite E. cbn [Z.opp]. rewrite Reqb_false by lra. do 2 eexists. split; [reflexivity|]. lra.
Qed.

(** ExGaussian with mean mu + nu, variance sigma^2 + nu^2 and skewness 2 nu^3 / (sigma^2 + nu^2)^(3/2): the fit gives the
    mean, standard deviation and skewness of the sample, when the skewness is between 0.0001 and 2. *)
Theorem C52_exgaussian : forall skew sample, sample <> [] -> 0.0001 <= skew sample <= 2 -> 0 < variance_of sample ->
  exists mu sigma nu, exgaussian_mle skew sample = Ok (mu, sigma, nu) /\ 0 <= sigma /\ 0 < nu /\
    mu + nu = mean_of sample /\ sigma ^ 2 + nu ^ 2 = variance_of sample /\
    2 * nu ^ 3 = skew sample * sqrt (variance_of sample) ^ 3.
Proof.
  intros skew sample N K V. unfold exgaussian_mle. rewrite mean_and_std_is, Rmax_right by lra.
  set (k := skew sample / 2). assert (K0 : 0 < k <= 1) by (unfold k; lra).
  set (s := sqrt (variance_of sample)). assert (S : 0 < s) by (apply sqrt_lt_R0; exact V).
  assert (SS : s ^ 2 = variance_of sample) by (unfold s; apply pow2_sqrt; lra).
  set (c := Rpower k (1 / 3)). assert (C : 0 < c) by apply exp_pos.
  assert (C2 : Rpower k (2 / 3) = c ^ 2).
  { unfold c. replace (2 / 3) with (1 / 3 + 1 / 3) by lra. rewrite Rpower_plus. ring. }
  assert (C3 : c ^ 3 = k).
  { unfold c. transitivity (Rpower k (1 / 3 + (1 / 3 + 1 / 3))); [rewrite !Rpower_plus; ring|].
    replace (1 / 3 + (1 / 3 + 1 / 3)) with 1 by lra. apply Rpower_1. lra. }
  rewrite C2. assert (C1 : c <= 1) by (destruct (Rle_lt_dec c 1); [assumption|]; assert (1 < c ^ 3) by (cbn [pow]; nra); lra).
  assert (W : 0 <= s ^ 2 * (1 - c ^ 2)) by (apply Rmult_le_pos; nra).
  rewrite Rltb_false by exact W. do 3 eexists. split; [reflexivity|]. split; [apply sqrt_pos|]. split; [nra|]. split; [ring|].
  split.
  - rewrite pow2_sqrt by exact W. rewrite <- SS. ring.
  - transitivity (2 * (s ^ 3 * c ^ 3)); [ring|]. rewrite C3. unfold k. field.
Qed.
(** A skewness above 2 gives no standard deviation. *)
Theorem C52_exgaussian_refuted : forall skew sample, sample <> [] -> 2 < skew sample -> 0 < variance_of sample ->
  exgaussian_mle skew sample = Err NaNResult.
Proof.
  intros skew sample N K V. unfold exgaussian_mle. rewrite mean_and_std_is, Rmax_right by lra.
  assert (S : 0 < sqrt (variance_of sample)) by (apply sqrt_lt_R0; exact V).
  assert (L : 1 < Rpower (skew sample / 2) (2 / 3)).
  { rewrite <- (Rpower_O (skew sample / 2)) by lra. apply Rpower_lt; lra. }
  rewrite Rltb_true; [reflexivity|]. apply Ropp_lt_cancel. rewrite Ropp_0.
  replace (- (sqrt (variance_of sample) ^ 2 * (1 - Rpower (skew sample / 2) (2 / 3)))) with
    (sqrt (variance_of sample) ^ 2 * (Rpower (skew sample / 2) (2 / 3) - 1)) by ring. apply Rmult_lt_0_compat; nra.
Qed.
(** VonMises: the location is the circular mean, wrapped into [-pi, pi). *)
Lemma np_mod_spec a b : 0 < b -> 0 <= np_mod a b < b /\ exists z : Z, np_mod a b = a + b * IZR z.
Proof.
  intro B. unfold np_mod. pose proof (base_Int_part (a / b)) as [L U].
  assert (Q : a = b * (a / b)) by (field; lra). split.
  - split; [|].
    + apply (Rmult_le_compat_l b) in L; lra.
    + assert (a / b - IZR (Int_part (a / b)) < 1) by lra. apply (Rmult_lt_compat_l b) in H; lra.
  - exists (- Int_part (a / b))%Z. rewrite opp_IZR. ring.
Qed.
Theorem C52_vonmises : forall circmean find_kappa sample mu kappa,
  vonmises_mle circmean find_kappa sample = (mu, kappa) ->
  exists data, Forall (fun d => 0 <= d < 2 * PI) data /\ Forall2 congruent data sample /\
    kappa = find_kappa data (circmean data) /\ - PI <= mu < PI /\ congruent mu (circmean data).
Proof.
  intros circmean find_kappa sample mu kappa E. unfold vonmises_mle in E. injection E as <- <-. pose proof PI_RGT_0 as P.
  exists (map (fun x => np_mod x (2 * PI)) sample). split; [|split; [|split; [reflexivity|]]].
  - apply Forall_forall. intros d I. apply in_map_iff in I. destruct I as (x & <- & _). apply np_mod_spec. lra.
  - clear. induction sample as [|x l IH]; cbn [map]; constructor; [|exact IH]. pose proof PI_RGT_0.
    destruct (np_mod_spec x (2 * PI) ltac:(lra)) as [_ [z Z]]. exists z. rewrite Z. ring.
  - set (m := circmean _). destruct (np_mod_spec (m + PI) (2 * PI) ltac:(lra)) as [B [z Z]]. split; [lra|].
    exists z. rewrite Z. ring.
Qed.
Example C52_exgaussian_applies : 0 < variance_of [1; 3].
Proof.
  unfold variance_of, mean_of. cbn [map length]. rewrite !Rsum_cons, !Rsum_nil. cbn [INR]. lra.
Qed.

(** A sample without values is refused by the fits that take its extremes, and no other sample is. *)
Theorem C51_empty : forall sample,
  (uniform_mle sample = Err ValueError <-> sample = []) /\
  (discrete_uniform_mle sample = Err ValueError <-> sample = []) /\
  (triangular_mle sample = Err ValueError <-> sample = []) /\
  (binomial_mle sample = Err ValueError <-> sample = []) /\
  (sample <> [] -> (exists u, uniform_mle sample = Ok u) /\ (exists u, discrete_uniform_mle sample = Ok u) /\
    exists t, triangular_mle sample = Ok t).
Proof.
  intros [|x l].
  - repeat split; intros; try reflexivity; try congruence.
  - unfold uniform_mle, discrete_uniform_mle, triangular_mle, binomial_mle, np_min, np_max. cbn [bind].
    destruct (mean_and_std (x :: l)) as [m s]. split; [split; discriminate|]. split; [split; discriminate|]. split; [split; discriminate|]. split.
    + split; [|discriminate]. destruct (Reqb _ 0); [discriminate|]. destruct (Reqb _ 0); discriminate.
    + intros _. repeat split; eexists; reflexivity.
Qed.

Print Assumptions C51_empty.
Print Assumptions C51_laplace.
Print Assumptions C51_geometric.
Print Assumptions C52_exgaussian.
