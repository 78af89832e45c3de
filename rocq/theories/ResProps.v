(** Property theorems for the functions minimised by the fits: C47. *)
From Coq Require Import List Bool String Reals Lra Lia Psatz.
From Verif Require Import Base RLists XR LawModel OptModel ResModel.
Import ListNotations.
Open Scope R_scope.

(* ---------------- specification ---------------- *)
(** The same distribution after a change of units x -> a + b x. *)
Definition in_units (a b : R) (d : rdist) : rdist :=
  let m := r_moments d in
  mkRd (fun x => r_cdf d ((x - a) / b)) (fun q => a + b * r_ppf d q) (fun x => r_pdf d ((x - a) / b) / b)
       {| f_mean := a + b * f_mean m; f_std := b * f_std m; f_var := b ^ 2 * f_var m; f_skew := f_skew m; f_kurt := f_kurt m |}.

(* ---------------- lemmas ---------------- *)
Lemma sum_squares_nonneg l : 0 <= sum_squares l.
Proof.
  unfold sum_squares. apply Rsum_nonneg. apply Forall_forall. intros x I. apply in_map_iff in I.
  destruct I as (y & <- & _). nra.
Qed.
Lemma sum_squares_zero l : sum_squares l = 0 <-> Forall (fun x => x = 0) l.
Proof.
  induction l as [|x l IH]; [cbn; split; auto|]. unfold sum_squares in *. cbn [map]. rewrite Rsum_cons.
  pose proof (sum_squares_nonneg l) as P. unfold sum_squares in P. split.
  - intro E. assert (x ^ 2 = 0) by nra. assert (Z : x = 0) by nra. constructor; [exact Z|]. apply IH. nra.
  - intro F. inversion F as [|? ? X F']; subst. apply IH in F'. rewrite F'. ring.
Qed.
Lemma sum_squares_scale b l : sum_squares (map (fun x => b * x) l) = b ^ 2 * sum_squares l.
Proof.
  unfold sum_squares. induction l as [|x l IH]; [cbn [map]; rewrite !Rsum_nil; ring|]. cbn [map]. rewrite !Rsum_cons, IH. ring.
Qed.
Lemma array_sub_zero a b diff : array_sub a b = Ok diff -> (Forall (fun x => x = 0) diff <-> a = b).
Proof.
  unfold array_sub. destruct (Nat.eqb_spec (List.length a) (List.length b)) as [L|]; [|discriminate].
  intro E. injection E as <-. revert b L. induction a as [|x a IH]; intros [|y b] L; try discriminate.
  - cbn. split; auto.
  - cbn [combine map fst snd]. injection L as L. specialize (IH b L). split.
    + intro F. inversion F as [|? ? X F']; subst. apply IH in F'. f_equal; [lra|exact F'].
    + intro E. injection E as -> ->. constructor; [lra|]. apply IH. reflexivity.
Qed.
Lemma array_sub_ok a b : List.length a = List.length b -> exists diff, array_sub a b = Ok diff.
Proof. intro L. unfold array_sub. rewrite L, Nat.eqb_refl. eexists; reflexivity. Qed.

(* ---------------- theorems ---------------- *)
(** Quartiles: the cost is zero iff the three values are points with cdf 1/4, 1/2 and 3/4. *)
Theorem C47_quartile : forall d q1 q2 q3, exists rs, quartile_residuals d [q1; q2; q3] = Ok rs /\
  (ls_cost rs = 0 <-> r_cdf d q1 = 1 / 4 /\ r_cdf d q2 = 1 / 2 /\ r_cdf d q3 = 3 / 4) /\ 0 <= ls_cost rs.
Proof.
  intros d q1 q2 q3. eexists. split; [reflexivity|]. unfold ls_cost. cbn [map combine fst snd].
  set (l := [r_cdf d q1 - 0.25; r_cdf d q2 - 0.5; r_cdf d q3 - 0.75]).
  pose proof (sum_squares_nonneg l). split; [|lra]. split.
  - intro E. assert (Z : sum_squares l = 0) by lra. apply sum_squares_zero in Z. unfold l in Z.
    inversion Z as [|? ? A Z1]; subst. inversion Z1 as [|? ? B Z2]; subst. inversion Z2 as [|? ? C _]; subst. lra.
  - intros (A & B & C). assert (Z : sum_squares l = 0); [|lra]. apply sum_squares_zero. unfold l. rewrite A, B, C.
    repeat constructor; lra.
Qed.
(** Quantiles: zero iff every requested quantile of the distribution is the requested value. *)
Theorem C47_quantiles : forall d qs target, List.length qs = List.length target ->
  exists loss, quantiles_loss d qs target = Ok loss /\ 0 <= loss /\ (loss = 0 <-> map (r_ppf d) qs = target).
Proof.
  intros d qs target L. unfold quantiles_loss.
  destruct (array_sub_ok (map (r_ppf d) qs) target ltac:(rewrite map_length; exact L)) as [diff E].
  rewrite E. cbn [bind]. eexists. split; [reflexivity|]. split; [apply sum_squares_nonneg|].
  rewrite sum_squares_zero. apply array_sub_zero. exact E.
Qed.
(** Roulette: the cost is zero exactly for a density with the height of the chips at every point. *)
Theorem C47_densities : forall d xs heights, List.length xs = List.length heights ->
  exists rs, pdf_residuals d xs heights = Ok rs /\ 0 <= ls_cost rs /\ (ls_cost rs = 0 <-> map (r_pdf d) xs = heights).
Proof.
  intros d xs heights L. unfold pdf_residuals.
  destruct (array_sub_ok (map (r_pdf d) xs) heights ltac:(rewrite map_length; exact L)) as [diff E].
  rewrite E. eexists. split; [reflexivity|]. unfold ls_cost. pose proof (sum_squares_nonneg diff) as N. split; [lra|].
  rewrite <- (array_sub_zero _ _ _ E), <- sum_squares_zero. lra.
Qed.
(** Moments: zero iff the requested moments of the distribution are the requested values. *)
Theorem C47_moments : forall d types vals target, moments (r_moments d) types = Ok vals ->
  List.length vals = List.length target ->
  exists loss, moments_loss d types target = Ok loss /\ 0 <= loss /\ (loss = 0 <-> vals = target).
Proof.
  intros d types vals target M L. unfold moments_loss. rewrite M. cbn [bind].
  destruct (array_sub_ok vals target L) as [diff E]. rewrite E. cbn [bind]. eexists. split; [reflexivity|].
  split; [apply sum_squares_nonneg|]. rewrite sum_squares_zero. apply array_sub_zero. exact E.
Qed.
(** Mean and standard deviation. *)
Theorem C47_mean_sigma : forall d mean sigma,
  0 <= mean_sigma_loss d mean sigma /\ (mean_sigma_loss d mean sigma = 0 <-> r_mean d = mean /\ r_std d = sigma).
Proof.
  intros d mean sigma. unfold mean_sigma_loss. pose proof (Rabs_pos (r_mean d - mean)). pose proof (Rabs_pos (r_std d - sigma)).
  split; [lra|]. split.
  - intro E. assert (A : Rabs (r_mean d - mean) = 0) by lra. assert (B : Rabs (r_std d - sigma) = 0) by lra.
    destruct (Req_dec (r_mean d - mean) 0) as [|N]; [|apply Rabs_pos_lt in N; lra].
    destruct (Req_dec (r_std d - sigma) 0) as [|N]; [|apply Rabs_pos_lt in N; lra]. lra.
  - intros [-> ->]. rewrite !Rminus_diag_eq by reflexivity. rewrite Rabs_R0. lra.
Qed.
(** Relative error of the enclosed mass: zero iff the mass is the required one; it is a percentage of it. *)
Theorem C47_relative_error : forall discrete cdf lower upper required c, required <> 0 ->
  computed_mass discrete cdf lower upper = Fin c ->
  exists e, relative_error discrete cdf lower upper (Fin required) = Fin e /\ 0 <= e /\
    (e = 0 <-> c = required) /\ Rabs (c - required) = e / 100 * Rabs required.
Proof.
  intros discrete cdf lower upper required c N E. unfold relative_error. rewrite E. cbn [xsub xadd xneg xdiv].
  rewrite Reqb_false by exact N. cbn [xmul xabs]. eexists. split; [reflexivity|].
  split; [apply Rabs_pos|]. split.
  - split.
    + intro Z. destruct (Req_dec ((c + - required) / required * 100) 0) as [Y|Y]; [|apply Rabs_pos_lt in Y; lra].
      assert (X : (c + - required) / required = 0) by lra. apply (f_equal (fun x => x * required)) in X.
      unfold Rdiv in X. rewrite Rmult_assoc, Rinv_l in X by exact N. lra.
    + intros ->. replace (required + - required) with 0 by lra. unfold Rdiv. rewrite !Rmult_0_l. apply Rabs_R0.
  - replace ((c + - required) / required * 100) with ((c - required) * / required * 100) by (unfold Rdiv, Rminus; ring).
    rewrite !Rabs_mult, Rabs_inv, (Rabs_right 100) by lra. field. apply Rabs_no_R0. exact N.
Qed.

(** Units. The quartile residuals do not change; the others are multiplied by a factor that is the same for every
    candidate, so that the comparison of two candidates, and the best one, do not depend on the units. *)
Theorem C47_units_quartile : forall a b d xs, b <> 0 ->
  quartile_residuals (in_units a b d) (map (fun x => a + b * x) xs) = quartile_residuals d xs.
Proof.
  intros a b d xs B. unfold quartile_residuals. f_equal. rewrite map_map. apply map_ext. intro x. cbn [in_units r_cdf].
  f_equal. field. exact B.
Qed.
Theorem C47_units_quantiles : forall a b d qs target loss, quantiles_loss d qs target = Ok loss ->
  quantiles_loss (in_units a b d) qs (map (fun x => a + b * x) target) = Ok (b ^ 2 * loss).
Proof.
  intros a b d qs target loss E. unfold quantiles_loss, array_sub in *. rewrite !map_length in *.
  destruct (Nat.eqb (List.length qs) (List.length target)); [|discriminate]. cbn [bind] in *. injection E as <-. f_equal.
  rewrite <- sum_squares_scale. f_equal. clear. revert target. induction qs as [|q qs IH]; intros [|t target]; cbn; auto.
  f_equal; [lra|]. apply IH.
Qed.
Theorem C47_units_mean_sigma : forall a b d mean sigma, 0 < b ->
  mean_sigma_loss (in_units a b d) (a + b * mean) (b * sigma) = b * mean_sigma_loss d mean sigma.
Proof.
  intros a b d mean sigma B. unfold mean_sigma_loss, r_mean, r_std. cbn [in_units r_moments f_mean f_std].
  replace (a + b * f_mean (r_moments d) - (a + b * mean)) with (b * (f_mean (r_moments d) - mean)) by ring.
  replace (b * f_std (r_moments d) - b * sigma) with (b * (f_std (r_moments d) - sigma)) by ring.
  rewrite !Rabs_mult, (Rabs_right b) by lra. ring.
Qed.
(** A choice between two candidates, before and after a change of units. *)
Theorem C47_units_same_choice : forall a b d1 d2 qs target l1 l2 l1' l2', b <> 0 ->
  quantiles_loss d1 qs target = Ok l1 -> quantiles_loss d2 qs target = Ok l2 ->
  quantiles_loss (in_units a b d1) qs (map (fun x => a + b * x) target) = Ok l1' ->
  quantiles_loss (in_units a b d2) qs (map (fun x => a + b * x) target) = Ok l2' ->
  (l1 < l2 <-> l1' < l2').
Proof.
  intros a b d1 d2 qs target l1 l2 l1' l2' B E1 E2 E1' E2'.
  rewrite (C47_units_quantiles a b _ _ _ _ E1) in E1'. rewrite (C47_units_quantiles a b _ _ _ _ E2) in E2'.
  injection E1' as <-. injection E2' as <-. assert (0 < b ^ 2) by nra. split; intro; nra.
Qed.
(** Moments of different orders are added without weights: the better of two candidates depends on the units. *)
Definition with_moments (m v : R) : rdist :=
  mkRd (fun _ => 0) (fun _ => 0) (fun _ => 0) {| f_mean := m; f_std := sqrt v; f_var := v; f_skew := 0; f_kurt := 0 |}.
(** Which of two candidates matches the moments better depends on the units of the data. *)
Theorem C47_moments_units_refuted : exists d1 d2 b l1 l2 l1' l2', 0 < b /\
  moments_loss d1 "mv" [0; 1] = Ok l1 /\ moments_loss d2 "mv" [0; 1] = Ok l2 /\ l1 < l2 /\
  moments_loss (in_units 0 b d1) "mv" [0; b ^ 2] = Ok l1' /\
  moments_loss (in_units 0 b d2) "mv" [0; b ^ 2] = Ok l2' /\ l2' < l1'.
Proof.
  exists (with_moments 1 1), (with_moments 0 2.5), (1 / 10). do 4 eexists. split; [lra|].
  split; [reflexivity|]. split; [reflexivity|].
  split; [unfold sum_squares; cbn; rewrite !Rsum_cons, !Rsum_nil; lra|]. split; [reflexivity|]. split; [reflexivity|]. unfold sum_squares; cbn; rewrite !Rsum_cons, !Rsum_nil; lra.
Qed.
Example C47_applies : exists loss, quantiles_loss (with_moments 0 1) [0.1; 0.9] [0; 0] = Ok loss /\ loss = 0.
Proof.
  destruct (C47_quantiles (with_moments 0 1) [0.1; 0.9] [0; 0] eq_refl) as (l & E & _ & Z). exists l. split; [exact E|].
  apply Z. reflexivity.
Qed.

Print Assumptions C47_relative_error.
Print Assumptions C47_moments_units_refuted.
