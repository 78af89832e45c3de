(** C88: probabilities computed in double precision. *)
From Coq Require Import List Bool Reals ZArith Lra Lia Permutation.
From Flocq Require Import Core Plus_error Relative Mult_error.
From Verif Require Import XR LawModel FloatModel FloatProofs.
Import ListNotations.
Open Scope R_scope.

(* ------------------------------------------------------------ specification *)
(** What is assumed of the cdf of the wrapped distribution, as its library computes it: double precision numbers between 0
    and 1 that do not decrease. *)
Record computed_cdf (F : xr -> R) : Prop := {
  cc_double : forall x, double (F x);
  cc_unit : forall x, 0 <= F x <= 1;
  cc_mono : forall x y, xleb x y = true -> F x <= F y }.
(** Likewise for its ppf. *)
Definition increasing (Q : R -> xr) : Prop := forall p p', p <= p' -> xleb (Q p) (Q p') = true.
(** The last point without mass: the lower bound, or the integer before it. *)
Definition before (k : kind) (lower : xr) : xr := match k with Continuous => lower | Discrete => xsub lower (Fin 1) end.
Definition usable (k : kind) (lower : xr) : Prop :=
  lower <> NaN /\ (k = Discrete -> forall l, lower = Fin l -> exists n, l = IZR n /\ (Z.abs n < 2 ^ 53)%Z).
(** One unit of 2^-53. *)
Definition u : R := bpow radix2 (-53).

(* ------------------------------------------------------------ lemmas *)
Lemma double_int n : (Z.abs n <= 2 ^ 53)%Z -> double (IZR n).
Proof.
  intro H. destruct (Z.eq_dec (Z.abs n) (2 ^ 53)) as [E|E].
  - assert (n = 2 ^ 53 \/ n = - 2 ^ 53)%Z as [-> | ->] by lia.
    + apply (double_bpow 53). lia.
    + rewrite opp_IZR. apply double_opp, (double_bpow 53). lia.
  - apply generic_format_FLT. exists (Float radix2 n 0); cbn [Fnum Fexp]; [unfold F2R; cbn; ring| |lia].
    change (radix2 ^ 53)%Z with (2 ^ 53)%Z. lia.
Qed.
Lemma adjust_before k lower : usable k lower -> f_adjust_lower k lower = before k lower.
Proof.
  intros [N H]. destruct k; [|reflexivity]. destruct lower as [l| | |]; try reflexivity.
  destruct (H eq_refl l eq_refl) as (n & -> & B). cbn. unfold fsub. rewrite rnd_id; [reflexivity|].
  rewrite <- minus_IZR. apply double_int. lia.
Qed.
Lemma before_number k lower : lower <> NaN -> before k lower <> NaN.
Proof. destruct k, lower; cbn; congruence. Qed.
Lemma xltb_false_le x y : x <> NaN -> y <> NaN -> xltb x y = false -> xleb y x = true.
Proof.
  intros X Y. unfold xleb. destruct x, y; cbn; try congruence; try reflexivity. intro H. unfold Rltb in *.
  destruct (Rlt_dec r r0); [discriminate|]. destruct (Rlt_dec r0 r); [reflexivity|]. cbn. unfold Reqb.
  destruct (Req_EM_T r0 r); [reflexivity|exfalso; lra].
Qed.
Lemma xleb_ltb_trans x y z : xleb x y = true -> xltb y z = true -> xltb x z = true.
Proof.
  unfold xleb. destruct x, y, z; cbn; try congruence; try reflexivity. unfold Rltb, Reqb.
  destruct (Rlt_dec r r0), (Rlt_dec r0 r1), (Rlt_dec r r1); cbn; try congruence; try reflexivity; try (intros; exfalso; lra).
  destruct (Req_EM_T r r0); [intros; exfalso; lra|discriminate].
Qed.
Lemma xltb_leb_trans x y z : xltb x y = true -> xleb y z = true -> xltb x z = true.
Proof.
  unfold xleb. destruct x, y, z; cbn; try congruence; try reflexivity. unfold Rltb, Reqb.
  destruct (Rlt_dec r r0), (Rlt_dec r0 r1), (Rlt_dec r r1); cbn; try congruence; try reflexivity; try (intros; exfalso; lra).
  destruct (Req_EM_T r0 r1); [intros; exfalso; lra|discriminate].
Qed.
Lemma xleb_numbers x y : xleb x y = true -> x <> NaN /\ y <> NaN.
Proof. unfold xleb. destruct x, y; cbn; try discriminate; split; congruence. Qed.
Lemma xleb_refl x : x <> NaN -> xleb x x = true.
Proof. unfold xleb. destruct x; cbn; try congruence; try reflexivity. intros _. unfold Reqb. destruct (Req_EM_T r r); [apply orb_true_r|congruence]. Qed.
Lemma div_le a b c : 0 < c -> a <= b -> a / c <= b / c.
Proof. intros C H. apply Rmult_le_compat_r; [left; apply Rinv_0_lt_compat, C|exact H]. Qed.
Lemma div_unit a c : 0 < c -> 0 <= a <= c -> 0 <= a / c <= 1.
Proof. intros C [A B]. split; [apply Rmult_le_pos; [exact A|left; apply Rinv_0_lt_compat, C]|]. apply Rmult_le_reg_r with c; [exact C|]. unfold Rdiv. rewrite Rmult_assoc, Rinv_l by lra. lra. Qed.

(* ------------------------------------------------------------ Truncated *)
(** The cdf of a truncated distribution is a cdf, rounding included: between 0 and 1, never decreasing, 0 at the last point
    without mass and exactly 1 at the upper bound. *)
Theorem C88_truncated_cdf : forall F k lower upper, computed_cdf F -> usable k lower -> upper <> NaN ->
  F (before k lower) < F upper ->
  (forall x, x <> NaN -> 0 <= f_trunc_cdf F k lower upper x <= 1) /\
  (forall x y, xleb x y = true -> f_trunc_cdf F k lower upper x <= f_trunc_cdf F k lower upper y) /\
  f_trunc_cdf F k lower upper upper = 1 /\ f_trunc_cdf F k lower upper (before k lower) = 0.
Proof.
  intros F k lower upper C LU UN M. unfold f_trunc_cdf. rewrite (adjust_before k lower LU).
  assert (BN : before k lower <> NaN) by (apply before_number; apply LU). set (lo := before k lower) in *.
  pose proof (fsub_pos _ _ (cc_double F C lo) (cc_double F C upper) M) as DP. set (d := fsub (F upper) (F lo)) in *.
  assert (LT : xltb lo upper = true).
  { destruct (xltb lo upper) eqn:E; [reflexivity|]. apply xltb_false_le in E; [|assumption..]. apply (cc_mono F C) in E. lra. }
  assert (IN : forall x, x <> NaN -> xltb x lo = false -> xltb upper x = false -> 0 <= fdiv (fsub (F x) (F lo)) d <= 1).
  { intros x X A B. apply xltb_false_le in A; [|assumption..]. apply xltb_false_le in B; [|assumption..].
    apply (cc_mono F C) in A. apply (cc_mono F C) in B. apply rnd_unit, div_unit; [exact DP|].
    split; [apply rnd_pos; lra|apply rnd_le; lra]. }
  assert (SR : forall x, x <> NaN -> xltb x x = false).
  { intros [r| | |] X; cbn; try reflexivity. unfold Rltb. destruct (Rlt_dec r r); [exfalso; lra|reflexivity]. }
  split; [|split; [|split]].
  - intros x X. destruct (xltb x lo) eqn:A; [lra|]. destruct (xltb upper x) eqn:B; [lra|]. apply IN; assumption.
  - intros x y H. pose proof (xleb_numbers _ _ H) as [X Y].
    destruct (xltb x lo) eqn:A.
    + destruct (xltb y lo) eqn:A'; [lra|]. destruct (xltb upper y) eqn:B; [lra|]. apply IN; assumption.
    + destruct (xltb y lo) eqn:A'; [rewrite (xleb_ltb_trans x y lo H A') in A; discriminate|].
      destruct (xltb upper x) eqn:B.
      * rewrite (xltb_leb_trans upper x y B H). lra.
      * destruct (xltb upper y) eqn:B'; [apply IN; assumption|].
        apply rnd_le, div_le; [exact DP|]. apply rnd_le. pose proof (cc_mono F C x y H). lra.
  - rewrite SR by exact UN. destruct (xltb upper lo) eqn:E.
    + exfalso. destruct lo, upper; cbn in *; try congruence; unfold Rltb in *; destruct (Rlt_dec r r0), (Rlt_dec r0 r); try discriminate; lra.
    + fold d. unfold fdiv. unfold Rdiv. rewrite Rinv_r by lra. apply rnd_1.
  - rewrite SR by exact BN. destruct (xltb upper lo) eqn:E.
    + exfalso. destruct lo, upper; cbn in *; try congruence; unfold Rltb in *; destruct (Rlt_dec r r0), (Rlt_dec r0 r); try discriminate; lra.
    + unfold fsub, fdiv. rewrite Rminus_eq_0, rnd_0. unfold Rdiv. rewrite Rmult_0_l. apply rnd_0.
Qed.

(** The probability at which a truncated distribution asks for a quantile of the wrapped one is at least that of the lower
    bound, at most 1, within 3/2 units of 2^-53 of the exact one, and never decreases; outside of [0, 1] the quantile is nan. *)
Theorem C88_truncated_ppf : forall F k lower upper, computed_cdf F -> usable k lower -> upper <> NaN ->
  F (before k lower) < F upper ->
  exists p : R -> R,
    (forall Q q, 0 <= q <= 1 -> f_trunc_ppf F Q k lower upper q = Q (p q)) /\
    (forall Q q, q < 0 \/ 1 < q -> f_trunc_ppf F Q k lower upper q = NaN) /\
    (forall q, 0 <= q <= 1 -> F (before k lower) <= p q <= 1 /\
       Rabs (p q - (F (before k lower) + q * (F upper - F (before k lower)))) <= 3 / 2 * u) /\
    (forall q q', 0 <= q -> q <= q' -> p q <= p q').
Proof.
  intros F k lower upper C LU UN M. unfold f_trunc_ppf. rewrite (adjust_before k lower LU). set (lo := before k lower) in *.
  pose proof (fsub_pos _ _ (cc_double F C lo) (cc_double F C upper) M) as DP.
  pose proof (cc_unit F C lo) as LO. pose proof (cc_unit F C upper) as UP.
  exists (fun q => fadd (F lo) (fmul q (fsub (F upper) (F lo)))). set (d := fsub (F upper) (F lo)) in *.
  assert (DE : Rabs (d - (F upper - F lo)) <= bpow radix2 (-54)) by (apply rnd_err_1; lra).
  assert (D1 : 0 <= d <= 1) by (apply rnd_unit; lra).
  split; [|split; [|split]].
  - intros Q q H. unfold Rltb. destruct (Rlt_dec q 0); [exfalso; lra|]. destruct (Rlt_dec 1 q); [exfalso; lra|]. reflexivity.
  - intros Q q [H|H]; unfold Rltb; [destruct (Rlt_dec q 0); [reflexivity|lra]|]. destruct (Rlt_dec q 0); [reflexivity|]. destruct (Rlt_dec 1 q); [reflexivity|lra].
  - intros q H.
    assert (QD : 0 <= q * d <= d) by (split; [apply Rmult_le_pos; lra|rewrite <- (Rmult_1_l d) at 2; apply Rmult_le_compat_r; lra]).
    assert (MU : 0 <= fmul q d <= d) by (split; [apply rnd_pos; lra|apply rnd_upper; [apply rnd_double|lra]]).
    assert (ME : Rabs (fmul q d - q * d) <= bpow radix2 (-54)) by (apply rnd_err_1; lra).
    apply Rabs_le_inv in DE. apply Rabs_le_inv in ME.
    assert (TOP : fadd (F lo) (fmul q d) <= 1) by (apply rnd_near_1; small; lra).
    split; [split; [apply rnd_ge; [apply (cc_double F C)|lra]|exact TOP]|].
    assert (SE : Rabs (fadd (F lo) (fmul q d) - (F lo + fmul q d)) <= bpow radix2 (-54)).
    { destruct (Rle_dec (F lo + fmul q d) 1) as [L|L]; [apply rnd_err_1; lra|].
      assert (E : fadd (F lo) (fmul q d) = 1).
      { apply Rle_antisym; [exact TOP|]. apply rnd_ge; [apply double_1|lra]. }
      rewrite E. apply Rabs_le. small. lra. }
    apply Rabs_le_inv in SE. unfold u. small.
    assert (q * (F upper - F lo) - / 18014398509481984 <= q * d <= q * (F upper - F lo) + / 18014398509481984).
    { split.
      - apply Rle_trans with (q * (F upper - F lo) - q * / 18014398509481984); [|apply Rle_trans with (q * (F upper - F lo - / 18014398509481984)); [lra|apply Rmult_le_compat_l; lra]].
        assert (q * / 18014398509481984 <= 1 * / 18014398509481984) by (apply Rmult_le_compat_r; lra). lra.
      - apply Rle_trans with (q * (F upper - F lo + / 18014398509481984)); [apply Rmult_le_compat_l; lra|].
        assert (q * / 18014398509481984 <= 1 * / 18014398509481984) by (apply Rmult_le_compat_r; lra). lra. }
    apply Rabs_le. lra.
  - intros q q' H0 H. apply rnd_le, Rplus_le_compat_l, rnd_le, Rmult_le_compat_r; lra.
Qed.

(** The uniform distribution on [0, 1]. *)
Definition unif_cdf (x : xr) : R := match x with Fin r => rnd (Rmax 0 (Rmin r 1)) | PInf => 1 | _ => 0 end.
Lemma unif_computed : computed_cdf unif_cdf.
Proof.
  constructor.
  - intros [r| | |]; [apply rnd_double|apply double_1|apply double_0|apply double_0].
  - assert (A : forall r, 0 <= Rmax 0 (Rmin r 1) <= 1).
    { intro r. split; [apply Rmax_l|]. apply Rmax_lub; [lra|apply Rmin_r]. }
    intros [r| | |]; cbn; try lra. apply rnd_unit, A.
  - assert (A : forall r, 0 <= Rmax 0 (Rmin r 1) <= 1).
    { intro r. split; [apply Rmax_l|]. apply Rmax_lub; [lra|apply Rmin_r]. }
    intros x y H. destruct x, y; cbn in *; try discriminate; try lra; try apply rnd_unit, A.
    apply rnd_le. apply Rle_max_compat_l. apply Rmin_glb; [|apply Rmin_r]. eapply Rle_trans; [apply Rmin_l|].
    unfold xleb in H. cbn in H. unfold Rltb, Reqb in H. destruct (Rlt_dec r r0); [lra|]. destruct (Req_EM_T r r0); [lra|discriminate].
Qed.
Ltac lit := cbn; first [lia | split; lra | apply Rabs_def1; lra | lra].
Lemma lit_03 : rnd (3 / 10) = 5404319552844595 * / 18014398509481984.
Proof. rewrite (rnd_is (-54) 5404319552844595) by lit. reflexivity. Qed.
Lemma lit_09 : rnd (9 / 10) = 8106479329266893 * / 9007199254740992.
Proof. rewrite (rnd_is (-53) 8106479329266893) by lit. reflexivity. Qed.
Lemma unif_at r : double r -> 0 <= r <= 1 -> unif_cdf (Fin r) = r.
Proof. intros D H. cbn. rewrite Rmin_left, Rmax_right by lra. apply rnd_id, D. Qed.

(** A quantile of a truncated distribution can lie beyond the upper bound: the uniform distribution on [0, 1] truncated to
    [0.3, 0.9] has 0.9000000000000001 as its quantile at 1. *)
Theorem C88_truncated_ppf_refuted : exists p, f_trunc_ppf unif_cdf Fin Continuous (Fin (rnd (3 / 10))) (Fin (rnd (9 / 10))) 1 = Fin p /\
  rnd (9 / 10) < p.
Proof.
  unfold f_trunc_ppf. cbn [f_adjust_lower]. unfold Rltb. destruct (Rlt_dec 1 0); [exfalso; lra|]. destruct (Rlt_dec 1 1); [exfalso; lra|]. cbn [orb].
  rewrite !unif_at; [|apply rnd_double|rewrite lit_09; lra|apply rnd_double|rewrite lit_03; lra].
  eexists. split; [reflexivity|]. unfold fadd, fmul, fsub. rewrite (Rmult_1_l (rnd (rnd (9 / 10) - rnd (3 / 10)))), (rnd_id (rnd (rnd (9 / 10) - rnd (3 / 10)))) by apply rnd_double.
  rewrite lit_03, lit_09.
  rewrite (rnd_tie (-53) 5404319552844595 (8106479329266893 * / 9007199254740992 - 5404319552844595 * / 18014398509481984)) by (cbn; first [lia | split; lra | lra]).
  cbn [Z.even]. rewrite (rnd_tie (-53) 8106479329266893) by (cbn; first [lia | split; lra | lra]). cbn. lra.
Qed.

(* ------------------------------------------------------------ Hurdle *)
(** The cdf of a hurdle distribution is between 0 and 1, constant up to 0 and does not decrease from the smallest positive
    point used (the machine precision) on. *)
Theorem C88_hurdle_cdf : forall F psi, computed_cdf F -> double psi -> 0 <= psi <= 1 -> F (Fin f_eps) < 1 ->
  (forall x, xleb x (Fin 0) = true -> f_hurdle_cdf F psi x = fsub 1 psi) /\
  (forall x, xleb x (Fin 0) = true \/ xleb (Fin f_eps) x = true -> 0 <= f_hurdle_cdf F psi x <= 1) /\
  (forall x y, xleb (Fin f_eps) x = true -> xleb x y = true -> f_hurdle_cdf F psi x <= f_hurdle_cdf F psi y).
Proof.
  intros F psi C DPS PS E1. unfold f_hurdle_cdf.
  pose proof (fsub_pos _ _ (cc_double F C _) double_1 E1) as DP. set (d := fsub 1 (F (Fin f_eps))) in *.
  assert (EP : 0 < f_eps) by apply bpow_gt_0.
  assert (NP : forall x, xleb (Fin f_eps) x = true -> xleb x (Fin 0) = false).
  { clear - EP. revert EP. generalize f_eps. intros e EP x H. destruct (xleb x (Fin 0)) eqn:E; [|reflexivity]. exfalso.
    destruct x; unfold xleb in *; cbn in *; try discriminate. unfold Rltb, Reqb in *.
    destruct (Rlt_dec e r), (Rlt_dec r 0), (Req_EM_T e r), (Req_EM_T r 0); cbn in *; try discriminate; lra. }
  assert (IN : forall x, xleb (Fin f_eps) x = true -> 0 <= fdiv (fmul psi (fsub 1 (F x))) d <= 1).
  { intros x H. apply rnd_unit, div_unit; [exact DP|]. pose proof (cc_unit F C x). pose proof (cc_mono F C _ _ H).
    assert (0 <= fsub 1 (F x) <= d) by (split; [apply rnd_pos; lra|apply rnd_le; lra]).
    split; [apply rnd_pos, Rmult_le_pos; lra|]. apply rnd_upper; [apply rnd_double|].
    apply Rle_trans with (1 * fsub 1 (F x)); [apply Rmult_le_compat_r; lra|lra]. }
  split; [|split].
  - intros x ->. reflexivity.
  - intros x [-> |H]; [apply rnd_unit; lra|]. rewrite (NP x H). apply rnd_unit. pose proof (IN x H). lra.
  - intros x y H L. rewrite (NP x H). assert (H' : xleb (Fin f_eps) y = true).
    { clear - H L. revert H. generalize f_eps. intros e H. destruct (xleb (Fin e) y) eqn:E; [reflexivity|]. destruct (xleb_numbers _ _ L) as [_ Y].
      unfold xleb in *. destruct x, y; cbn in *; try congruence. unfold Rltb, Reqb in *.
      destruct (Rlt_dec e r), (Rlt_dec r r0), (Rlt_dec e r0), (Req_EM_T e r), (Req_EM_T r r0), (Req_EM_T e r0); cbn in *; try discriminate; exfalso; lra. }
    rewrite (NP y H'). apply rnd_le, Rplus_le_compat_l, Ropp_le_contravar, rnd_le, div_le; [exact DP|].
    apply rnd_le, Rmult_le_compat_l; [lra|]. apply rnd_le. pose proof (cc_mono F C x y L). lra.
Qed.

Lemma lit_02 : rnd (2 / 10) = 7205759403792794 * / 36028797018963968.
Proof. rewrite (rnd_is (-55) 7205759403792794) by lit. reflexivity. Qed.
(** From 0 to the positive points it can decrease: with psi = 0.2 and a wrapped distribution three quarters of whose mass
    are positive (Bernoulli(0.75), say), the cdf is 0.8 at 0 and 0.7999999999999999 just after. *)
Theorem C88_hurdle_cdf_refuted : forall F x, F (Fin f_eps) = / 4 -> F x = / 4 -> xleb x (Fin 0) = false ->
  f_hurdle_cdf F (rnd (2 / 10)) x < f_hurdle_cdf F (rnd (2 / 10)) (Fin 0).
Proof.
  intros F x E1 E2 X. unfold f_hurdle_cdf. rewrite X, E1, E2.
  replace (xleb (Fin 0) (Fin 0)) with true by (symmetry; apply xleb_refl; discriminate).
  assert (E : fsub 1 (/ 4) = 3 / 4).
  { unfold fsub. replace (1 - / 4) with (3 / 4) by lra. rewrite (rnd_is (-53) 6755399441055744) by lit. cbn. lra. }
  rewrite E, lit_02.
  assert (M : fmul (7205759403792794 * / 36028797018963968) (3 / 4) = 5404319552844596 * / 36028797018963968).
  { unfold fmul. rewrite (rnd_tie (-55) 5404319552844595) by (cbn; first [lia | split; lra | lra]). reflexivity. }
  assert (D : fdiv (5404319552844596 * / 36028797018963968) (3 / 4) = 7205759403792795 * / 36028797018963968).
  { unfold fdiv. rewrite (rnd_is (-55) 7205759403792795) by lit. reflexivity. }
  assert (A : fsub 1 (7205759403792795 * / 36028797018963968) = 7205759403792793 * / 9007199254740992).
  { unfold fsub. rewrite (rnd_is (-53) 7205759403792793) by lit. reflexivity. }
  assert (B : fsub 1 (7205759403792794 * / 36028797018963968) = 7205759403792794 * / 9007199254740992).
  { unfold fsub. rewrite (rnd_tie (-53) 7205759403792793) by (cbn; first [lia | split; lra | lra]). reflexivity. }
  rewrite M, D, A, B. lra.
Qed.
Definition bernoulli_cdf (x : xr) : R := if xltb x (Fin 0) then 0 else if xltb x (Fin 1) then / 4 else match x with NaN => 0 | _ => 1 end.
Example C88_hurdle_applies : computed_cdf bernoulli_cdf /\ bernoulli_cdf (Fin f_eps) = / 4 /\ bernoulli_cdf (Fin (/ 2)) = / 4 /\ bernoulli_cdf (Fin f_eps) < 1.
Proof.
  assert (E : 0 < f_eps < 1) by (unfold f_eps; small; lra).
  assert (V : bernoulli_cdf (Fin f_eps) = / 4).
  { revert E. generalize f_eps. intros e E. unfold bernoulli_cdf. cbn. unfold Rltb. destruct (Rlt_dec e 0); [exfalso; lra|]. destruct (Rlt_dec e 1); [reflexivity|exfalso; lra]. }
  split; [|split; [exact V|split; [|rewrite V; lra]]].
  - constructor.
    + intro x. unfold bernoulli_cdf. destruct (xltb x (Fin 0)); [apply double_0|]. destruct (xltb x (Fin 1)); [apply (double_bpow (-2)); lia|].
      destruct x; first [apply double_1|apply double_0].
    + intro x. unfold bernoulli_cdf. destruct (xltb x (Fin 0)); [lra|]. destruct (xltb x (Fin 1)); [lra|]. destruct x; lra.
    + intros x y H. unfold bernoulli_cdf. destruct (xltb x (Fin 0)) eqn:A.
      { destruct (xltb y (Fin 0)); [lra|]. destruct (xltb y (Fin 1)); [lra|]. destruct y; lra. }
      destruct (xltb y (Fin 0)) eqn:A'; [rewrite (xleb_ltb_trans x y _ H A') in A; discriminate|].
      destruct (xltb x (Fin 1)) eqn:B; [destruct (xltb y (Fin 1)); [lra|]; destruct (xleb_numbers _ _ H) as [_ N]; destruct y; try congruence; lra|].
      destruct (xltb y (Fin 1)) eqn:B'; [rewrite (xleb_ltb_trans x y _ H B') in B; discriminate|].
      destruct (xleb_numbers _ _ H) as [N N']. destruct x, y; try congruence; lra.
  - unfold bernoulli_cdf. cbn. unfold Rltb. destruct (Rlt_dec (/ 2) 0); [exfalso; lra|]. destruct (Rlt_dec (/ 2) 1); [reflexivity|exfalso; lra].
Qed.

(** The quantiles of a hurdle distribution do not decrease where the wrapped ones do not, and are quantiles of the wrapped
    one at least at the probability of what is cut off; below 1 - psi they are 0, outside of [0, 1] nan. *)
Theorem C88_hurdle_ppf : forall F k psi, computed_cdf F -> double psi -> 0 < psi <= 1 ->
  let cut := F (Fin (match k with Discrete => 0 | Continuous => f_eps end)) in
  exists p : R -> R,
    (forall Q q, 0 <= q <= 1 -> f_hurdle_ppf F Q k psi q = if Rlt_dec q (fsub 1 psi) then Fin 0 else Q (p q)) /\
    (forall Q q, q < 0 \/ 1 < q -> f_hurdle_ppf F Q k psi q = NaN) /\
    (forall q, fsub 1 psi <= q -> cut <= p q) /\ (forall q q', q <= q' -> p q <= p q').
Proof.
  intros F k psi C DPS PS cut. unfold f_hurdle_ppf.
  replace (F (Fin match k with Discrete => 0 | _ => f_eps end)) with cut by (destruct k; reflexivity).
  assert (CU : 0 <= cut <= 1) by apply (cc_unit F C). assert (CD : double cut) by apply (cc_double F C).
  assert (R1 : 0 <= fsub 1 cut) by (apply rnd_pos; lra).
  exists (fun q => fadd cut (fdiv (fmul (fsub q (fsub 1 psi)) (fsub 1 cut)) psi)). split; [|split; [|split]].
  - intros Q q H. unfold Rltb, Rleb. destruct (Rlt_dec q 0); [exfalso; lra|]. destruct (Rlt_dec 1 q); [exfalso; lra|]. cbn.
    destruct (Rle_dec (fsub 1 psi) q), (Rlt_dec q (fsub 1 psi)); try reflexivity; exfalso; lra.
  - intros Q q [H|H]; unfold Rltb; [destruct (Rlt_dec q 0); [reflexivity|lra]|]. destruct (Rlt_dec q 0); [reflexivity|]. destruct (Rlt_dec 1 q); [reflexivity|lra].
  - intros q H. apply rnd_ge; [exact CD|]. assert (0 <= fdiv (fmul (fsub q (fsub 1 psi)) (fsub 1 cut)) psi); [|lra].
    apply rnd_pos. apply Rmult_le_pos; [|left; apply Rinv_0_lt_compat; lra]. apply rnd_pos, Rmult_le_pos; [apply rnd_pos; lra|exact R1].
  - intros q q' H. apply rnd_le, Rplus_le_compat_l, rnd_le, div_le; [lra|]. apply rnd_le, Rmult_le_compat_r; [exact R1|]. apply rnd_le. lra.
Qed.

(** The quantile at 1 of a hurdle distribution can be nan: with psi = 0.3 and (almost) no mass cut off, the wrapped
    distribution is asked for its quantile at 1.0000000000000002. *)
Theorem C88_hurdle_ppf_refuted : forall F Q, (forall p, 1 < p -> Q p = NaN) -> 0 <= F (Fin f_eps) <= bpow radix2 (-60) ->
  f_hurdle_ppf F Q Continuous (rnd (3 / 10)) 1 = NaN.
Proof.
  intros F Q HQ HF. unfold f_hurdle_ppf, Rltb, Rleb. destruct (Rlt_dec 1 0); [exfalso; lra|]. destruct (Rlt_dec 1 1); [exfalso; lra|]. cbn [orb].
  set (c := F (Fin f_eps)) in *.
  assert (S60 : bpow radix2 (-60) = / 1152921504606846976) by reflexivity. rewrite S60 in HF.
  assert (E1 : fsub 1 c = 1).
  { apply Rle_antisym; [apply rnd_upper; [apply double_1|lra]|]. apply Rle_trans with (rnd (1 - / 1152921504606846976)); [|apply rnd_le; lra].
    rewrite (rnd_is (-53) 9007199254740992) by lit. cbn. lra. }
  rewrite E1.
  assert (E2 : fsub 1 (rnd (3 / 10)) = 6305039478318694 * / 9007199254740992).
  { unfold fsub. rewrite lit_03. rewrite (rnd_tie (-53) 6305039478318694) by (cbn; first [lia | split; lra | lra]). reflexivity. }
  rewrite E2. destruct (Rle_dec (6305039478318694 * / 9007199254740992) 1); [|exfalso; lra].
  assert (E3 : fsub 1 (6305039478318694 * / 9007199254740992) = 5404319552844596 * / 18014398509481984).
  { unfold fsub. rewrite (rnd_is (-54) 5404319552844596) by lit. reflexivity. }
  rewrite E3. assert (E4 : fmul (5404319552844596 * / 18014398509481984) 1 = 5404319552844596 * / 18014398509481984).
  { unfold fmul. rewrite Rmult_1_r, <- E3. unfold fsub. apply rnd_id, rnd_double. }
  rewrite E4. apply HQ.
  assert (E5 : fdiv (5404319552844596 * / 18014398509481984) (rnd (3 / 10)) = 4503599627370497 * / 4503599627370496).
  { unfold fdiv. rewrite lit_03. rewrite (rnd_is (-52) 4503599627370497) by (cbn; first [lia | split; lra | apply Rabs_def1; lra]). reflexivity. }
  rewrite E5. apply Rlt_le_trans with (4503599627370497 * / 4503599627370496); [lra|]. apply rnd_ge; [rewrite <- E5; apply rnd_double|lra].
Qed.

(* ------------------------------------------------------------ Mixture *)
Lemma fsum_double t v : (forall i, In i (entries t) -> double (v i)) -> double (fsum t v).
Proof. destruct t; cbn; intro H; [apply H; left; reflexivity|apply rnd_double]. Qed.
Lemma fsum_pos t v : (forall i, In i (entries t) -> 0 <= v i) -> 0 <= fsum t v.
Proof.
  induction t as [i|a IHa b IHb]; cbn; intro H; [apply H; left; reflexivity|]. apply rnd_pos.
  assert (0 <= fsum a v) by (apply IHa; intros; apply H, in_or_app; left; assumption).
  assert (0 <= fsum b v) by (apply IHb; intros; apply H, in_or_app; right; assumption). lra.
Qed.
Lemma fsum_ge t v : (forall i, In i (entries t) -> double (v i) /\ 0 <= v i) -> forall i, In i (entries t) -> v i <= fsum t v.
Proof.
  induction t as [j|a IHa b IHb]; cbn; intros H i I.
  - destruct I as [-> |[]]. lra.
  - assert (Ha : forall i, In i (entries a) -> double (v i) /\ 0 <= v i) by (intros; apply H, in_or_app; left; assumption).
    assert (Hb : forall i, In i (entries b) -> double (v i) /\ 0 <= v i) by (intros; apply H, in_or_app; right; assumption).
    assert (Pa : 0 <= fsum a v) by (apply fsum_pos; intros; apply Ha; assumption).
    assert (Pb : 0 <= fsum b v) by (apply fsum_pos; intros; apply Hb; assumption).
    apply rnd_ge; [apply H, I|]. apply in_app_or in I as [I|I]; [pose proof (IHa Ha i I)|pose proof (IHb Hb i I)]; lra.
Qed.
Lemma fsum_le t v v' : (forall i, In i (entries t) -> v i <= v' i) -> fsum t v <= fsum t v'.
Proof.
  induction t as [j|a IHa b IHb]; cbn; intro H; [apply H; left; reflexivity|]. apply rnd_le, Rplus_le_compat;
    [apply IHa|apply IHb]; intros; apply H, in_or_app; [left|right]; assumption.
Qed.

(** Any order of summation over the [n] members. *)
Definition covers (t : order) (n : nat) : Prop := Permutation (entries t) (seq 0 n).
Definition good_weights (n : nat) (w : nat -> R) : Prop :=
  (forall i, (i < n)%nat -> double (w i) /\ 0 <= w i) /\ exists i, (i < n)%nat /\ 0 < w i.
Lemma covers_in t n i : covers t n -> (In i (entries t) <-> (i < n)%nat).
Proof. intro C. split; intro H; [apply (Permutation_in _ C) in H; apply in_seq in H; lia|]. apply (Permutation_in _ (Permutation_sym C)). apply in_seq. lia. Qed.
Lemma total_pos t n w : covers t n -> good_weights n w -> 0 < fsum t w.
Proof.
  intros C [G (i & I & P)]. apply Rlt_le_trans with (w i); [exact P|]. apply fsum_ge.
  - intros j J. apply G, (covers_in t n j C), J.
  - apply (covers_in t n i C), I.
Qed.

(** The normalised weights of a mixture are between 0 and 1. *)
Theorem C88_mixture_weights : forall n t w, covers t n -> good_weights n w ->
  forall i, (i < n)%nat -> double (f_weights t w i) /\ 0 <= f_weights t w i <= 1.
Proof.
  intros n t w C G i I. split; [apply rnd_double|]. apply rnd_unit, div_unit; [apply (total_pos t n w C G)|].
  destruct G as [G _]. split; [apply G, I|]. apply fsum_ge; [|apply (covers_in t n i C), I].
  intros j J. apply G, (covers_in t n j C), J.
Qed.

(** The sum of what numpy adds up, to first order. *)
Lemma u_pos : 0 < u < / 4. Proof. unfold u. small. lra. Qed.
Lemma fadd_rel a b : double a -> double b -> 0 <= a -> 0 <= b -> (a + b) * (1 - u) <= fadd a b <= (a + b) * (1 + u).
Proof.
  intros A B PA PB. destruct (@FLT_plus_error_N_ex radix2 (-1074) 53 eq_refl (fun x => negb (Z.even x)) a b A B) as (e & HE & E).
  unfold fadd, rnd. rewrite E.
  assert (U : u_ro radix2 53 = u) by (unfold u_ro, u; cbn; lra). rewrite U in HE. pose proof u_pos as UP.
  assert (H : u / (1 + u) <= u).
  { apply Rmult_le_reg_r with (1 + u); [lra|]. unfold Rdiv. rewrite Rmult_assoc, Rinv_l by lra. rewrite Rmult_1_r.
    rewrite <- (Rmult_1_r u) at 1. apply Rmult_le_compat_l; lra. }
  apply Rabs_le_inv in HE. set (k := u / (1 + u)) in *. clearbody k. split; apply Rmult_le_compat_l; lra.
Qed.
Definition xsum (l : list nat) (v : nat -> R) : R := fold_right (fun i s => v i + s) 0 l.
Lemma xsum_app l r v : xsum (l ++ r) v = xsum l v + xsum r v.
Proof. unfold xsum. induction l as [|i l IH]; cbn; [lra|]. rewrite IH. lra. Qed.
Lemma xsum_perm l r v : Permutation l r -> xsum l v = xsum r v.
Proof. unfold xsum. induction 1; cbn; lra. Qed.
Lemma xsum_pos l v : (forall i, In i l -> 0 <= v i) -> 0 <= xsum l v.
Proof.
  unfold xsum. induction l as [|i l IH]; cbn; intro H; [lra|]. pose proof (H i (or_introl eq_refl)).
  assert (0 <= fold_right (fun i s => v i + s) 0 l) by (apply IH; intros; apply H; right; assumption). lra.
Qed.
Lemma pow_unit x n : 0 <= x <= 1 -> x ^ n <= 1.
Proof. intro H. replace 1 with (1 ^ n) by apply pow1. apply pow_incr, H. Qed.
Lemma pow_hi_mono m n : (m <= n)%nat -> 1 <= (1 + u) ^ m <= (1 + u) ^ n.
Proof. pose proof u_pos. intro H0. split; [apply pow_R1_Rle; lra|apply Rle_pow; [lra|exact H0]]. Qed.
Lemma pow_lo_mono m n : (m <= n)%nat -> 0 < (1 - u) ^ n <= (1 - u) ^ m.
Proof.
  pose proof u_pos. intro H0. split; [apply pow_lt; lra|]. replace n with (m + (n - m))%nat by lia. rewrite pow_add.
  rewrite <- (Rmult_1_r ((1 - u) ^ m)) at 2. apply Rmult_le_compat_l; [left; apply pow_lt; lra|].
  apply pow_unit. lra.
Qed.
Lemma entries_len t : (1 <= length (entries t))%nat.
Proof. induction t; cbn; [lia|]. rewrite app_length. lia. Qed.
Lemma fsum_rel t v : (forall i, In i (entries t) -> double (v i) /\ 0 <= v i) ->
  xsum (entries t) v * (1 - u) ^ (length (entries t) - 1) <= fsum t v <= xsum (entries t) v * (1 + u) ^ (length (entries t) - 1).
Proof.
  pose proof u_pos as UP.
  induction t as [j|a IHa b IHb]; intro H.
  - unfold xsum. cbn. lra.
  - cbn [entries fsum] in *. rewrite app_length, xsum_app.
    assert (Ha : forall i, In i (entries a) -> double (v i) /\ 0 <= v i) by (intros; apply H, in_or_app; left; assumption).
    assert (Hb : forall i, In i (entries b) -> double (v i) /\ 0 <= v i) by (intros; apply H, in_or_app; right; assumption).
    specialize (IHa Ha). specialize (IHb Hb).
    assert (Pa : 0 <= fsum a v) by (apply fsum_pos; intros; apply Ha; assumption).
    assert (Pb : 0 <= fsum b v) by (apply fsum_pos; intros; apply Hb; assumption).
    assert (Xa : 0 <= xsum (entries a) v) by (apply xsum_pos; intros; apply Ha; assumption).
    assert (Xb : 0 <= xsum (entries b) v) by (apply xsum_pos; intros; apply Hb; assumption).
    pose proof (fadd_rel (fsum a v) (fsum b v) (fsum_double a v (fun i I => proj1 (Ha i I))) (fsum_double b v (fun i I => proj1 (Hb i I))) Pa Pb) as R.
    pose proof (entries_len a) as La. pose proof (entries_len b) as Lb.
    set (la := length (entries a)) in *. set (lb := length (entries b)) in *. set (n := (la + lb - 2)%nat).
    replace (la + lb - 1)%nat with (S n) by lia. cbn [pow].
    destruct (pow_lo_mono (la - 1) n ltac:(lia)) as [L0 L1]. destruct (pow_lo_mono (lb - 1) n ltac:(lia)) as [_ L2].
    destruct (pow_hi_mono (la - 1) n ltac:(lia)) as [G0 G1]. destruct (pow_hi_mono (lb - 1) n ltac:(lia)) as [G0' G2].
    assert (A1 : xsum (entries a) v * (1 - u) ^ n <= fsum a v) by (eapply Rle_trans; [apply Rmult_le_compat_l; [exact Xa|exact L1]|apply IHa]).
    assert (B1 : xsum (entries b) v * (1 - u) ^ n <= fsum b v) by (eapply Rle_trans; [apply Rmult_le_compat_l; [exact Xb|exact L2]|apply IHb]).
    assert (A2 : fsum a v <= xsum (entries a) v * (1 + u) ^ n) by (eapply Rle_trans; [apply IHa|apply Rmult_le_compat_l; [exact Xa|exact G1]]).
    assert (B2 : fsum b v <= xsum (entries b) v * (1 + u) ^ n) by (eapply Rle_trans; [apply IHb|apply Rmult_le_compat_l; [exact Xb|exact G2]]).
    split.
    + eapply Rle_trans; [|apply R]. replace ((xsum (entries a) v + xsum (entries b) v) * ((1 - u) * (1 - u) ^ n)) with
        ((xsum (entries a) v * (1 - u) ^ n + xsum (entries b) v * (1 - u) ^ n) * (1 - u)) by ring.
      apply Rmult_le_compat_r; lra.
    + eapply Rle_trans; [apply R|]. replace ((xsum (entries a) v + xsum (entries b) v) * ((1 + u) * (1 + u) ^ n)) with
        ((xsum (entries a) v * (1 + u) ^ n + xsum (entries b) v * (1 + u) ^ n) * (1 + u)) by ring.
      apply Rmult_le_compat_r; lra.
Qed.
Lemma pow_lo n : 1 - INR n * u <= (1 - u) ^ n.
Proof.
  pose proof u_pos. induction n as [|n IH]; [cbn; lra|]. rewrite S_INR. cbn [pow].
  assert (0 < (1 - u) ^ n <= 1). { split; [apply pow_lt; lra|]. apply pow_unit. lra. }
  apply Rle_trans with ((1 - INR n * u) - u); [lra|]. replace ((1 - u) * (1 - u) ^ n) with ((1 - u) ^ n - u * (1 - u) ^ n) by ring.
  assert (u * (1 - u) ^ n <= u * 1) by (apply Rmult_le_compat_l; lra). lra.
Qed.
Lemma pow_hi n : (1 + u) ^ n * (1 - INR n * u) <= 1.
Proof.
  pose proof u_pos. apply Rle_trans with ((1 + u) ^ n * (1 - u) ^ n).
  - apply Rmult_le_compat_l; [left; apply pow_lt; lra|apply pow_lo].
  - rewrite <- Rpow_mult_distr. apply pow_unit. split; [apply Rmult_le_pos; lra|]. pose proof (pow2_ge_0 u). nra.
Qed.

(** The cdf of a mixture of [n] members: never negative, never decreasing, and not more than 1 + n 2^-51, whatever the
    weights and the order of the summations. *)
Theorem C88_mixture_cdf : forall n t t' F w, covers t n -> covers t' n -> good_weights n w -> (forall i, (i < n)%nat -> computed_cdf (F i)) ->
  (forall x, 0 <= f_mix_cdf t t' F w x) /\
  (forall x y, xleb x y = true -> f_mix_cdf t t' F w x <= f_mix_cdf t t' F w y) /\
  ((n <= 2 ^ 20)%nat -> forall x, f_mix_cdf t t' F w x <= 1 + INR n * bpow radix2 (-51)).
Proof.
  intros n t t' F w C C' G HF. pose proof u_pos as UP.
  assert (W : forall i, In i (entries t') -> double (f_weights t w i) /\ 0 <= f_weights t w i <= 1).
  { intros i I. apply (C88_mixture_weights n t w C G). apply (covers_in t' n i C'), I. }
  assert (FI : forall i, In i (entries t') -> computed_cdf (F i)) by (intros i I; apply HF, (covers_in t' n i C'), I).
  split; [|split].
  - intro x. apply fsum_pos. intros i I. apply rnd_pos, Rmult_le_pos; [apply (cc_unit _ (FI i I))|apply W, I].
  - intros x y H. apply fsum_le. intros i I. apply rnd_le, Rmult_le_compat_r; [apply W, I|apply (cc_mono _ (FI i I)), H].
  - intros NB x.
    apply Rle_trans with (fsum t' (f_weights t w)).
    { apply fsum_le. intros i I. apply rnd_upper; [apply W, I|]. destruct (W i I) as [_ WI]. pose proof (cc_unit _ (FI i I) x).
      apply Rle_trans with (1 * f_weights t w i); [apply Rmult_le_compat_r; lra|lra]. }
    assert (LEN : length (entries t') = n) by (rewrite (Permutation_length C'), seq_length; reflexivity).
    assert (LEN' : length (entries t) = n) by (rewrite (Permutation_length C), seq_length; reflexivity).
    destruct (fsum_rel t' (f_weights t w)) as [_ R]; [intros i I; destruct (W i I); tauto|].
    rewrite LEN in R.
    assert (N1 : (1 <= n)%nat) by (rewrite <- LEN; apply entries_len).
    set (m := (n - 1)%nat) in *. assert (EN : INR n = INR m + 1) by (unfold m; rewrite <- S_INR; f_equal; lia).
    set (S := fsum t w) in *. pose proof (total_pos t n w C G : 0 < S) as SP.
    destruct (fsum_rel t w) as [RS _]; [intros j J; apply G, (covers_in t n j C), J|]. rewrite LEN' in RS. fold m in RS. fold S in RS.
    (* the exact sum of the normalised weights *)
    assert (XS : xsum (entries t') (f_weights t w) <= xsum (entries t) w / S + INR n * (/ 2 * u)).
    { rewrite (xsum_perm _ _ (f_weights t w) C'), (xsum_perm _ _ w C).
      assert (GE : forall l, (forall i, In i l -> (i < n)%nat) -> xsum l (f_weights t w) <= xsum l w / S + INR (length l) * (/ 2 * u)).
      { induction l as [|i l IH]; intro B; [cbn; unfold Rdiv; lra|].
        cbn [length]. rewrite S_INR. change (xsum (i :: l) (f_weights t w)) with (f_weights t w i + xsum l (f_weights t w)).
        change (xsum (i :: l) w) with (w i + xsum l w). specialize (IH (fun j J => B j (or_intror J))).
        assert (E : f_weights t w i <= w i / S + / 2 * u).
        { assert (Q : 0 <= w i / S <= 1).
          { apply div_unit; [exact SP|]. split; [apply G, B; left; reflexivity|]. apply fsum_ge; [intros j J; apply G, (covers_in t n j C), J|].
            apply (covers_in t n i C), B. left. reflexivity. }
          pose proof (rnd_err_1 (w i / S) ltac:(lra)) as ER. apply Rabs_le_inv in ER. unfold f_weights, fdiv. fold S. unfold u. small. lra. }
        replace ((w i + xsum l w) / S) with (w i / S + xsum l w / S) by (field; lra). lra. }
      rewrite <- (seq_length n 0) at 3. apply GE. intros i I. apply in_seq in I. lia. }
    assert (XW : 0 <= xsum (entries t) w) by (apply xsum_pos; intros j J; apply G, (covers_in t n j C), J).
    assert (MB : INR m * u <= / 4294967296).
    { assert (INR m <= 1048576). { apply Rle_trans with (INR (2 ^ 20)); [apply le_INR; lia|]. rewrite pow_INR. cbn [INR]. lra. }
      unfold u. small. apply Rle_trans with (1048576 * / 9007199254740992); [apply Rmult_le_compat_r; lra|lra]. }
    assert (MP : 0 <= INR m * u) by (apply Rmult_le_pos; [apply pos_INR|lra]).
    set (a := INR m * u) in *.
    pose proof (pow_lo m) as PL. fold a in PL. pose proof (pow_hi m) as PH. fold a in PH.
    (* the quotient of the exact and the computed total *)
    assert (Q : xsum (entries t) w / S * (1 - a) <= 1).
    { apply Rmult_le_reg_r with S; [exact SP|]. replace (xsum (entries t) w / S * (1 - a) * S) with (xsum (entries t) w * (1 - a)) by (field; lra).
      rewrite Rmult_1_l. eapply Rle_trans; [|exact RS]. apply Rmult_le_compat_l; [exact XW|exact PL]. }
    set (q := xsum (entries t) w / S) in *.
    assert (Q0 : 0 <= q) by (apply Rmult_le_pos; [exact XW|left; apply Rinv_0_lt_compat, SP]).
    assert (Q2 : q <= 1 + 9 / 8 * a).
    { apply Rmult_le_reg_r with (1 - a); [lra|]. eapply Rle_trans; [exact Q|]. nra. }
    assert (H2 : (1 + u) ^ m <= 1 + 9 / 8 * a).
    { apply Rmult_le_reg_r with (1 - a); [lra|]. eapply Rle_trans; [exact PH|]. nra. }
    assert (H0 : 1 <= (1 + u) ^ m) by (apply pow_R1_Rle; lra).
    eapply Rle_trans; [exact R|].
    assert (T : xsum (entries t') (f_weights t w) <= 1 + 9 / 8 * a + / 2 * (a + u)).
    { eapply Rle_trans; [exact XS|]. rewrite EN. unfold a. unfold a in Q2. lra. }
    assert (X0 : 0 <= xsum (entries t') (f_weights t w)) by (apply xsum_pos; intros j J; apply W, J).
    apply Rle_trans with ((1 + 9 / 8 * a + / 2 * (a + u)) * (1 + 9 / 8 * a)).
    { apply Rle_trans with (xsum (entries t') (f_weights t w) * (1 + 9 / 8 * a)); [apply Rmult_le_compat_l; lra|apply Rmult_le_compat_r; lra]. }
    replace (bpow radix2 (-51)) with (4 * u) by (unfold u; small; cbn; lra). rewrite EN.
    replace ((INR m + 1) * (4 * u)) with (4 * a + 4 * u) by (unfold a; ring).
    assert (a * a <= a * / 4294967296) by (apply Rmult_le_compat_l; lra).
    assert (a * u <= / 4294967296 * u) by (apply Rmult_le_compat_r; lra). nra.
Qed.

Definition w4 (i : nat) : R := nth i [2; 4; 3; 1] 0.
(** Beyond 1 it can go: four members with weights 2, 4, 3 and 1, added from left to right, give 1.0000000000000002 where
    every member has its whole mass. The survival function is then negative and its logarithm nan. *)
Theorem C88_mixture_cdf_refuted : forall F x, (forall i, (i < 4)%nat -> F i x = 1) ->
  let c := f_mix_cdf (left_to_right 3) (left_to_right 3) F w4 x in
  1 < c /\ f_sf c < 0 /\ forall log, f_logsf log c = NaN.
Proof.
  intros F x H c.
  assert (T : fsum (left_to_right 3) w4 = 10).
  { cbn. unfold w4. cbn. unfold fadd.
    assert (I : forall z, (Z.abs z <= 2 ^ 53)%Z -> rnd (IZR z) = IZR z) by (intros; apply rnd_id, double_int; assumption).
    replace (2 + 4) with 6 by lra. rewrite (I 6%Z) by lia. replace (6 + 3) with 9 by lra. rewrite (I 9%Z) by lia.
    replace (9 + 1) with 10 by lra. apply (I 10%Z). lia. }
  assert (M : forall i, (i < 4)%nat -> fmul (F i x) (f_weights (left_to_right 3) w4 i) = rnd (w4 i / 10)).
  { intros i I. rewrite (H i I). unfold f_weights, fmul, fdiv. rewrite T, Rmult_1_l. apply rnd_id, rnd_double. }
  assert (C : c = 4503599627370497 * / 4503599627370496).
  { unfold c, f_mix_cdf.
    assert (X : forall v, fsum (left_to_right 3) v = fadd (fadd (fadd (v 0%nat) (v 1%nat)) (v 2%nat)) (v 3%nat)) by reflexivity.
    rewrite X. rewrite (M 0%nat), (M 1%nat), (M 2%nat), (M 3%nat) by lia. unfold w4. cbn [nth]. rewrite lit_02, lit_03.
    assert (E4 : rnd (4 / 10) = 7205759403792794 * / 18014398509481984) by (rewrite (rnd_is (-54) 7205759403792794) by lit; reflexivity).
    assert (E1 : rnd (1 / 10) = 7205759403792794 * / 72057594037927936) by (rewrite (rnd_is (-56) 7205759403792794) by lit; reflexivity).
    rewrite E4, E1.
    assert (S1 : fadd (7205759403792794 * / 36028797018963968) (7205759403792794 * / 18014398509481984) = 5404319552844596 * / 9007199254740992).
    { unfold fadd. rewrite (rnd_tie (-53) 5404319552844595) by (cbn; first [lia | split; lra | lra]). reflexivity. }
    assert (S2 : fadd (5404319552844596 * / 9007199254740992) (5404319552844595 * / 18014398509481984) = 8106479329266894 * / 9007199254740992).
    { unfold fadd. rewrite (rnd_tie (-53) 8106479329266893) by (cbn; first [lia | split; lra | lra]). reflexivity. }
    assert (S3 : fadd (8106479329266894 * / 9007199254740992) (7205759403792794 * / 72057594037927936) = 4503599627370497 * / 4503599627370496).
    { unfold fadd. rewrite (rnd_is (-52) 4503599627370497) by lit. reflexivity. }
    rewrite S1, S2, S3. reflexivity. }
  assert (N : f_sf c = - / 4503599627370496).
  { rewrite C. unfold f_sf, fsub. replace (1 - 4503599627370497 * / 4503599627370496) with (- / 4503599627370496) by lra.
    apply rnd_id, double_opp. apply (double_bpow (-52)). lia. }
  split; [rewrite C; lra|]. split; [rewrite N; lra|]. intro log. unfold f_logsf. rewrite N. unfold Rltb.
  destruct (Rlt_dec (- / 4503599627370496) 0); [reflexivity|exfalso; lra].
Qed.
Example C88_mixture_applies : covers (left_to_right 3) 4 /\ good_weights 4 w4.
Proof.
  split; [apply Permutation_refl|]. split; [|exists 0%nat; split; [lia|unfold w4; cbn; lra]].
  intros i I. unfold w4. destruct i as [|[|[|[|i]]]]; [| | | |lia]; cbn; (split; [apply double_int; lia|lra]).
Qed.
Example C88_truncated_applies : computed_cdf unif_cdf /\ usable Continuous (Fin (rnd (3 / 10))) /\ usable Discrete (Fin 2) /\
  unif_cdf (before Continuous (Fin (rnd (3 / 10)))) < unif_cdf (Fin (rnd (9 / 10))).
Proof.
  split; [apply unif_computed|]. split; [split; [discriminate|discriminate]|]. split.
  - split; [discriminate|]. intros _ l E. injection E as <-. exists 2%Z. split; [reflexivity|lia].
  - cbn [before]. rewrite !unif_at; [rewrite lit_03, lit_09; lra|apply rnd_double|rewrite lit_09; lra|apply rnd_double|rewrite lit_03; lra].
Qed.

(* ------------------------------------------------------------ survival function, intervals *)
(** The survival function: between 0 and 1, never increasing, within half a unit of 1 - cdf, and 0 only where the cdf is 1. *)
Theorem C88_sf : forall c, double c -> 0 <= c <= 1 ->
  0 <= f_sf c <= 1 /\ (forall c', c <= c' -> f_sf c' <= f_sf c) /\ Rabs (f_sf c - (1 - c)) <= / 2 * u /\ (f_sf c = 0 <-> c = 1).
Proof.
  intros c D H. split; [apply rnd_unit; lra|]. split; [intros; apply rnd_le; lra|]. split.
  - replace (/ 2 * u) with (bpow radix2 (-54)) by (unfold u; small; lra). apply rnd_err_1. lra.
  - unfold f_sf. rewrite (fsub_0 1 c double_1 D). split; congruence.
Qed.
(** isf asks ppf for probabilities in [0, 1], and does not increase if ppf does not decrease. *)
Theorem C88_isf : forall Q, increasing Q ->
  (forall q, 0 <= q <= 1 -> exists p, f_isf Q q = Q p /\ 0 <= p <= 1 /\ Rabs (p - (1 - q)) <= / 2 * u) /\
  forall q q', q <= q' -> xleb (f_isf Q q') (f_isf Q q) = true.
Proof.
  intros Q I. split.
  - intros q H. exists (fsub 1 q). split; [reflexivity|]. split; [apply rnd_unit; lra|].
    replace (/ 2 * u) with (bpow radix2 (-54)) by (unfold u; small; lra). apply rnd_err_1. lra.
  - intros q q' H. apply I, rnd_le. lra.
Qed.
(** The two probabilities of an equal-tailed interval: on the two sides of the median, within a unit of 2^-53 of the exact
    ones, and further apart for a larger mass. *)
Theorem C88_eti : forall mass, 0 <= mass <= 1 ->
  let '(lo, up) := f_tails mass in
  0 <= lo <= / 2 /\ / 2 <= up <= 1 /\ Rabs (lo - (1 - mass) / 2) <= u /\ Rabs (up - (1 + mass) / 2) <= 3 / 2 * u /\
  forall mass', mass <= mass' <= 1 -> fst (f_tails mass') <= lo /\ up <= snd (f_tails mass').
Proof.
  intros mass H. unfold f_tails. set (t := fsub 1 mass).
  assert (T : 0 <= t <= 1) by (apply rnd_unit; lra).
  assert (TE : Rabs (t - (1 - mass)) <= bpow radix2 (-54)) by (apply rnd_err_1; lra).
  assert (L : 0 <= fdiv t 2 <= / 2) by (split; [apply rnd_pos; lra|apply rnd_upper; [apply double_half|lra]]).
  assert (LE : Rabs (fdiv t 2 - t / 2) <= bpow radix2 (-54)) by (apply rnd_err_1; lra).
  assert (UE : Rabs (fsub 1 (fdiv t 2) - (1 - fdiv t 2)) <= bpow radix2 (-54)) by (apply rnd_err_1; lra).
  apply Rabs_le_inv in TE. apply Rabs_le_inv in LE. apply Rabs_le_inv in UE. unfold u. small.
  split; [exact L|]. split; [split; [apply rnd_ge; [apply double_half|lra]|apply rnd_upper; [apply double_1|lra]]|].
  split; [apply Rabs_le; lra|]. split; [apply Rabs_le; lra|].
  intros m' M. cbn [fst snd].
  assert (A : fdiv (fsub 1 m') 2 <= fdiv t 2) by (apply rnd_le, div_le; [lra|]; apply rnd_le; lra).
  split; [exact A|]. apply rnd_le. lra.
Qed.

(* ------------------------------------------------------------ logit, expit, samples *)
(** logit of a double strictly between 0 and 1 takes the logarithm of a positive number, that grows with its argument. *)
Theorem C88_logit : forall x, double x -> 0 < x < 1 ->
  0 < fsub 1 x /\ x <= f_odds x /\ forall y, double y -> x <= y < 1 -> f_odds x <= f_odds y.
Proof.
  intros x D H. assert (P : forall y, double y -> y < 1 -> 0 < fsub 1 y) by (intros; apply fsub_pos; [assumption|apply double_1|assumption]).
  pose proof (P x D ltac:(lra)) as PX. split; [exact PX|]. split.
  - apply rnd_ge; [exact D|]. assert (fsub 1 x <= 1) by (apply rnd_upper; [apply double_1|lra]).
    apply Rmult_le_reg_r with (fsub 1 x); [exact PX|]. unfold Rdiv. rewrite Rmult_assoc, Rinv_l by lra.
    apply Rmult_le_compat_l; lra.
  - intros y DY Y. pose proof (P y DY ltac:(lra)) as PY. apply rnd_le.
    assert (fsub 1 y <= fsub 1 x) by (apply rnd_le; lra).
    apply Rle_trans with (y / fsub 1 x); [apply div_le; lra|]. apply Rmult_le_compat_l; [lra|]. apply Rinv_le_contravar; lra.
Qed.
(** expit with an exponential that is positive, increasing and 1 at 0: between 0 and 1, at least 1/2 from 0 on, at most 1/2
    before. *)
Theorem C88_expit : forall exp, (forall x, double (exp x) /\ 0 <= exp x) -> (forall x y, x <= y -> exp x <= exp y) -> exp 0 = 1 ->
  (forall x, 0 <= f_expit exp x <= 1) /\ f_expit exp 0 = / 2 /\
  (forall x, 0 <= x -> / 2 <= f_expit exp x) /\ (forall x, x <= 0 -> f_expit exp x <= / 2) /\
  (forall x y, 0 <= x <= y -> f_expit exp x <= f_expit exp y).
Proof.
  intros exp P M Z.
  assert (A : forall x, 0 <= x -> 1 <= fadd 1 (exp (- x)) <= 2).
  { intros x H. destruct (P (- x)) as [_ Q]. pose proof (M (- x) 0 ltac:(lra)) as R. rewrite Z in R.
    split; [apply rnd_ge; [apply double_1|lra]|apply rnd_upper; [apply double_2|lra]]. }
  assert (UP : forall x, 0 <= x -> / 2 <= fdiv 1 (fadd 1 (exp (- x))) <= 1).
  { intros x H. specialize (A x H). split.
    - apply rnd_ge; [apply double_half|]. unfold Rdiv. rewrite Rmult_1_l. apply Rinv_le_contravar; lra.
    - apply rnd_upper; [apply double_1|]. unfold Rdiv. rewrite Rmult_1_l. apply Rle_trans with (/ 1); [apply Rinv_le_contravar; lra|rewrite Rinv_1; lra]. }
  assert (DN : forall x, x < 0 -> 0 <= fdiv (exp x) (fadd 1 (exp x)) <= / 2).
  { intros x H. destruct (P x) as [D Q]. pose proof (M x 0 ltac:(lra)) as R. rewrite Z in R.
    assert (B : 1 <= fadd 1 (exp x)) by (apply rnd_ge; [apply double_1|lra]).
    split; [apply rnd_pos, Rmult_le_pos; [exact Q|left; apply Rinv_0_lt_compat; lra]|].
    apply rnd_upper; [apply double_half|]. apply Rmult_le_reg_r with (fadd 1 (exp x)); [lra|].
    unfold Rdiv. rewrite Rmult_assoc, Rinv_l by lra.
    assert (2 * exp x <= fadd 1 (exp x)); [|lra]. apply rnd_ge; [|lra].
    replace (2 * exp x) with (exp x * bpow radix2 1) by (cbn; ring). apply mult_bpow_pos_exact_FLT; [exact D|lia]. }
  assert (Z2 : f_expit exp 0 = / 2).
  { unfold f_expit, Rleb. destruct (Rle_dec 0 0); [|exfalso; lra]. rewrite Ropp_0, Z. unfold fadd. replace (1 + 1) with 2 by lra.
    rewrite (rnd_id 2 double_2). unfold fdiv, Rdiv. rewrite Rmult_1_l. apply rnd_id, double_half. }
  split; [|split; [exact Z2|split; [|split]]].
  - intro x. unfold f_expit, Rleb. destruct (Rle_dec 0 x) as [H|H]; [pose proof (UP x H); lra|pose proof (DN x ltac:(lra)); lra].
  - intros x H. unfold f_expit, Rleb. destruct (Rle_dec 0 x); [apply UP, H|exfalso; lra].
  - intros x [H|H]; [|rewrite H, Z2; lra]. unfold f_expit, Rleb. destruct (Rle_dec 0 x); [exfalso; lra|apply DN, H].
  - intros x y H. unfold f_expit, Rleb. destruct (Rle_dec 0 x); [|exfalso; lra]. destruct (Rle_dec 0 y); [|exfalso; lra].
    apply rnd_le. unfold Rdiv. rewrite !Rmult_1_l. pose proof (A y ltac:(lra)). apply Rinv_le_contravar; [lra|].
    apply rnd_le, Rplus_le_compat_l, M. lra.
Qed.

(** The mean and standard deviation of a sample of three times 0.1 are 0.10000000000000002 and not 0: a fit by maximum
    likelihood to a constant sample has a positive scale. *)
Theorem C88_constant_sample_refuted :
  let x := rnd (1 / 10) in let '(m, s) := f_mean_and_std (left_to_right 2) [x; x; x] in x < m /\ 0 < s.
Proof.
  cbn zeta. unfold f_mean_and_std. cbn [left_to_right fsum length nth].
  assert (E1 : rnd (1 / 10) = 7205759403792794 * / 72057594037927936) by (rewrite (rnd_is (-56) 7205759403792794) by lit; reflexivity).
  rewrite E1. set (x := 7205759403792794 * / 72057594037927936) in *.
  assert (S1 : fadd x x = 7205759403792794 * / 36028797018963968).
  { unfold fadd, x. rewrite (rnd_is (-55) 7205759403792794) by lit. reflexivity. }
  assert (S2 : fadd (7205759403792794 * / 36028797018963968) x = 5404319552844596 * / 18014398509481984).
  { unfold fadd, x. rewrite (rnd_tie (-54) 5404319552844595) by (cbn; first [lia | split; lra | lra]). reflexivity. }
  rewrite S1, S2. replace (INR 3) with 3 by (cbn; lra).
  assert (S3 : fdiv (5404319552844596 * / 18014398509481984) 3 = 7205759403792795 * / 72057594037927936).
  { unfold fdiv. rewrite (rnd_is (-56) 7205759403792795) by lit. reflexivity. }
  rewrite S3. set (m := 7205759403792795 * / 72057594037927936). split; [unfold x, m; lra|].
  assert (D : fsub x m = - bpow radix2 (-56)).
  { unfold fsub. replace (x - m) with (- bpow radix2 (-56)) by (unfold x, m; cbn; lra). apply rnd_id, double_opp, double_bpow. lia. }
  cbn [f_squares]. rewrite D.
  assert (Q : rnd (- bpow radix2 (-56) * - bpow radix2 (-56)) = bpow radix2 (-112)).
  { replace (- bpow radix2 (-56) * - bpow radix2 (-56)) with (bpow radix2 (-56) * bpow radix2 (-56)) by ring. rewrite <- bpow_plus.
    apply rnd_id, double_bpow. lia. }
  rewrite Q.
  assert (A : forall s, 0 <= s -> bpow radix2 (-112) <= fadd s (bpow radix2 (-112))) by (intros; apply rnd_ge; [apply double_bpow; lia|lra]).
  assert (Z : 0 < bpow radix2 (-112)) by apply bpow_gt_0.
  assert (B : bpow radix2 (-112) <= fadd (fadd (fadd 0 (bpow radix2 (-112))) (bpow radix2 (-112))) (bpow radix2 (-112))).
  { apply A. pose proof (A 0 ltac:(lra)). pose proof (A _ (Rle_trans _ _ _ (Rlt_le _ _ Z) H)). lra. }
  set (sq := fadd (fadd (fadd 0 (bpow radix2 (-112))) (bpow radix2 (-112))) (bpow radix2 (-112))) in *.
  apply Rlt_le_trans with (bpow radix2 (-57)); [apply bpow_gt_0|]. apply rnd_ge; [apply double_bpow; lia|].
  rewrite <- (sqrt_Rsqr (bpow radix2 (-57))) by apply bpow_ge_0. apply sqrt_le_1_alt. unfold Rsqr. rewrite <- bpow_plus.
  apply rnd_ge; [apply double_bpow; lia|]. replace (bpow radix2 (-57 + -57)) with (bpow radix2 (-112) / 4).
  - lra.
  - replace (bpow radix2 (-112)) with (bpow radix2 2 * bpow radix2 (-57 + -57)) by (rewrite <- bpow_plus; reflexivity). cbn [bpow]. change (IZR (Z.pow_pos radix2 2)) with 4. lra.
Qed.

Lemma f_squares_ge m data : forall s, double s -> s <= f_squares m data s.
Proof.
  induction data as [|y r IH]; intros s D; cbn [f_squares]; [lra|].
  assert (P : 0 <= rnd (fsub y m * fsub y m)) by (apply rnd_pos, Rle_0_sqr).
  apply Rle_trans with (fadd s (rnd (fsub y m * fsub y m))); [apply rnd_ge; [exact D|lra]|]. apply IH, fadd_double.
Qed.
Lemma f_squares_in m x data : In x data -> forall s, 0 <= s -> double s -> rnd (fsub x m * fsub x m) <= f_squares m data s.
Proof.
  induction data as [|y r IH]; [easy|]. intros [-> | H] s P D; cbn [f_squares].
  - apply Rle_trans with (fadd s (rnd (fsub x m * fsub x m))); [apply rnd_ge; [apply rnd_double|lra]|].
    apply f_squares_ge, fadd_double.
  - apply (IH H); [|apply fadd_double]. apply rnd_pos. pose proof (rnd_pos _ (Rle_0_sqr (fsub y m))). unfold Rsqr in *. lra.
Qed.
Lemma f_squares_0 m data : (forall y, In y data -> y = m) -> f_squares m data 0 = 0.
Proof.
  induction data as [|y r IH]; [easy|]. intro H. cbn [f_squares]. rewrite (H y (or_introl eq_refl)).
  unfold fsub. replace (m - m) with 0 by ring. rewrite rnd_0, Rmult_0_l, rnd_0. unfold fadd. rewrite Rplus_0_r, rnd_0.
  apply IH. intros z Z. apply H. now right.
Qed.
(** The standard deviation of a sample is at least the share of each value: no squared deviation is lost, however many
    values there are and whatever their sizes; and it is 0 when every value is the computed mean. *)
Theorem C88_std t data :
  let '(m, s) := f_mean_and_std t data in
  (forall x, In x data -> rnd (sqrt (fdiv (rnd (fsub x m * fsub x m)) (INR (length data)))) <= s) /\
  ((forall x, In x data -> x = m) -> s = 0).
Proof.
  unfold f_mean_and_std. set (m := fdiv _ _). split.
  - intros x H. apply rnd_le, sqrt_le_1_alt, rnd_le. apply Rmult_le_compat_r.
    + destruct data; [easy|]. left. apply Rinv_0_lt_compat, lt_0_INR. cbn [length]. lia.
    + apply f_squares_in; [exact H|lra|apply double_0].
  - intro H. rewrite (f_squares_0 m data H). unfold fdiv, Rdiv. rewrite Rmult_0_l, rnd_0, sqrt_0. apply rnd_0.
Qed.

(* ------------------------------------------------------------ combine *)
Lemma ztrunc_bounds x : 0 <= x -> (0 <= Ztrunc x)%Z /\ IZR (Ztrunc x) <= x < IZR (Ztrunc x) + 1.
Proof.
  intro H. rewrite Ztrunc_floor by exact H. split; [apply Zfloor_lub; exact H|].
  pose proof (Zfloor_lb x). pose proof (Zfloor_ub x). lra.
Qed.
Lemma size_bounds n t w N i : covers t n -> good_weights n w -> (n <= 2 ^ 20)%nat -> (N <= 2 ^ 20)%nat -> (i < n)%nat ->
  let share := w i / xsum (seq 0 n) w in
  let y := fmul (INR N) (f_weights t w i) in
  0 <= y /\ Rabs (y - INR N * share) <= INR N * (share * (9 / 8 * (INR n * u)) + 3 / 2 * u).
Proof.
  intros C G NB SB I share y. pose proof u_pos as UP.
  destruct (C88_mixture_weights n t w C G i I) as [WD WU].
  assert (LEN' : length (entries t) = n) by (rewrite (Permutation_length C), seq_length; reflexivity).
  assert (N1 : (1 <= n)%nat) by lia. set (m := (n - 1)%nat). assert (EN : INR n = INR m + 1) by (unfold m; rewrite <- S_INR; f_equal; lia).
  pose proof (total_pos t n w C G) as SP. set (S := fsum t w) in *.
  assert (GT : forall j, In j (entries t) -> double (w j) /\ 0 <= w j) by (intros j J; apply G, (covers_in t n j C), J).
  destruct (fsum_rel t w GT) as [R1 R2]. rewrite LEN' in R1, R2. fold m in R1, R2. fold S in R1, R2. rewrite (xsum_perm _ _ w C) in R1, R2.
  set (W := xsum (seq 0 n) w) in *.
  assert (PU : 0 < (1 + u) ^ m) by (apply pow_lt; lra).
  assert (WP : 0 < W).
  { destruct (Rle_lt_dec W 0) as [L|L]; [|exact L]. exfalso. assert (W * (1 + u) ^ m <= 0 * (1 + u) ^ m) by (apply Rmult_le_compat_r; lra). lra. }
  assert (MB : INR m * u <= / 4294967296).
  { assert (INR m <= 1048576). { apply Rle_trans with (INR (2 ^ 20)); [apply le_INR; lia|]. rewrite pow_INR. cbn [INR]. lra. }
    unfold u. small. apply Rle_trans with (1048576 * / 9007199254740992); [apply Rmult_le_compat_r; lra|lra]. }
  assert (MP : 0 <= INR m * u) by (apply Rmult_le_pos; [apply pos_INR|lra]).
  set (a := INR m * u) in *. pose proof (pow_lo m) as PL. fold a in PL. pose proof (pow_hi m) as PH. fold a in PH.
  assert (H2 : (1 + u) ^ m <= 1 + 9 / 8 * a).
  { apply Rmult_le_reg_r with (1 - a); [lra|]. eapply Rle_trans; [exact PH|]. nra. }
  assert (QH : W / S <= 1 + 9 / 8 * a).
  { apply Rmult_le_reg_r with (1 - a); [lra|]. apply Rle_trans with 1; [|nra]. apply Rmult_le_reg_r with S; [exact SP|].
    replace (W / S * (1 - a) * S) with (W * (1 - a)) by (field; lra). rewrite Rmult_1_l. eapply Rle_trans; [|exact R1]. apply Rmult_le_compat_l; lra. }
  assert (QL : 1 - 9 / 8 * a <= W / S).
  { apply Rmult_le_reg_r with S; [exact SP|]. replace (W / S * S) with W by (field; lra).
    apply Rle_trans with ((1 - 9 / 8 * a) * (W * (1 + 9 / 8 * a))).
    - apply Rmult_le_compat_l; [lra|]. eapply Rle_trans; [exact R2|]. apply Rmult_le_compat_l; lra.
    - assert (0 <= a * a) by (apply Rmult_le_pos; lra). assert (0 <= W * (a * a)) by (apply Rmult_le_pos; lra). nra. }
  assert (SH : 0 <= share) by (apply Rmult_le_pos; [apply G, I|left; apply Rinv_0_lt_compat, WP]).
  assert (WS : w i / S = share * (W / S)) by (unfold share; field; lra).
  assert (WE : Rabs (f_weights t w i - w i / S) <= / 2 * u).
  { replace (/ 2 * u) with (bpow radix2 (-54)) by (unfold u; small; lra). apply rnd_err_1.
    assert (0 <= w i / S <= 1); [|lra]. apply div_unit; [exact SP|]. split; [apply G, I|]. apply fsum_ge; [exact GT|apply (covers_in t n i C), I]. }
  apply Rabs_le_inv in WE. rewrite WS in WE.
  assert (S1 : share * (W / S) <= share * (1 + 9 / 8 * a)) by (apply Rmult_le_compat_l; lra).
  assert (S2 : share * (1 - 9 / 8 * a) <= share * (W / S)) by (apply Rmult_le_compat_l; lra).
  assert (NP : 0 <= INR N) by apply pos_INR.
  split; [apply rnd_pos, Rmult_le_pos; lra|].
  assert (YE : Rabs (y - INR N * f_weights t w i) <= INR N * u).
  { destruct (Nat.eq_dec N 0) as [-> |NZ].
    { unfold y, fmul. cbn [INR]. rewrite !Rmult_0_l, rnd_0, Rminus_0_r, Rabs_R0. lra. }
    destruct (mag radix2 (INR N)) as [e He]. assert (NN : INR N <> 0) by (apply not_0_INR, NZ). specialize (He NN). rewrite Rabs_pos_eq in He by exact NP.
    assert (EP : (1 <= e)%Z).
    { destruct (Z_lt_le_dec e 1) as [LT|GE]; [|exact GE]. exfalso. assert (1 <= INR N) by (apply (le_INR 1); lia).
      assert (bpow radix2 e <= bpow radix2 0) by (apply bpow_le; lia). cbn in H0. lra. }
    apply Rle_trans with (bpow radix2 (e - 54)).
    - apply rnd_err; [lia|]. rewrite Rabs_pos_eq by (apply Rmult_le_pos; lra).
      apply Rle_trans with (INR N * 1); [apply Rmult_le_compat_l; lra|lra].
    - replace (e - 54)%Z with ((e - 1) + (-53))%Z by lia. rewrite bpow_plus. fold u. apply Rmult_le_compat_r; lra. }
  apply Rabs_le_inv in YE.
  assert (AN : share * (9 / 8 * a) <= share * (9 / 8 * (INR n * u))).
  { apply Rmult_le_compat_l; [exact SH|]. unfold a. rewrite EN. apply Rmult_le_compat_l; [lra|]. apply Rmult_le_compat_r; lra. }
  assert (D1 : f_weights t w i - share <= share * (9 / 8 * (INR n * u)) + / 2 * u) by lra.
  assert (D2 : - (share * (9 / 8 * (INR n * u)) + / 2 * u) <= f_weights t w i - share) by lra.
  apply (Rmult_le_compat_l (INR N) _ _ NP) in D1. apply (Rmult_le_compat_l (INR N) _ _ NP) in D2.
  apply Rabs_le. split; lra.
Qed.

Lemma xsum_member : forall l (w : nat -> R) i, (forall j, In j l -> 0 <= w j) -> In i l -> w i <= xsum l w.
Proof.
  induction l as [|j l IH]; intros w i GS II; [destruct II|]. destruct II as [J|J].
  - subst j. assert (0 <= xsum l w) by (apply xsum_pos; intros; apply GS; right; assumption). unfold xsum in *. cbn. lra.
  - specialize (IH w i (fun k K => GS k (or_intror K)) J). pose proof (GS j (or_introl eq_refl)). unfold xsum in *. cbn. lra.
Qed.
(** combine draws [f_size] values from each distribution. *)
Definition total_size (t : order) (w : nat -> R) (N n : nat) : Z := fold_right (fun i s => (f_size t w (INR N) i + s)%Z) 0%Z (seq 0 n).
(** Up to a million distributions and draws: each distribution gives its share of the draws, rounded down (or missed by
    one), and in all there are at most as many as asked for, and at most one per distribution less. *)
Theorem C88_combine : forall n t w N, covers t n -> good_weights n w -> (n <= 2 ^ 20)%nat -> (N <= 2 ^ 20)%nat ->
  (forall i, (i < n)%nat -> let share := INR N * (w i / xsum (seq 0 n) w) in
     (0 <= f_size t w (INR N) i)%Z /\ share - 1 - / 1000 < IZR (f_size t w (INR N) i) <= share + / 1000) /\
  (Z.of_nat N - Z.of_nat n <= total_size t w N n <= Z.of_nat N)%Z.
Proof.
  intros n t w N C G NB SB. pose proof u_pos as UP.
  assert (NP : 0 <= INR N) by apply pos_INR. assert (nP : 0 <= INR n) by apply pos_INR.
  assert (N2 : INR N <= 1048576). { apply Rle_trans with (INR (2 ^ 20)); [apply le_INR; lia|]. rewrite pow_INR. cbn [INR]. lra. }
  assert (n2 : INR n <= 1048576). { apply Rle_trans with (INR (2 ^ 20)); [apply le_INR; lia|]. rewrite pow_INR. cbn [INR]. lra. }
  assert (US : u = / 9007199254740992) by (unfold u; small; reflexivity).
  assert (GS : forall j, In j (seq 0 n) -> 0 <= w j) by (intros j J; apply in_seq in J; apply G; lia).
  set (W := xsum (seq 0 n) w).
  assert (WP : 0 < W).
  { destruct G as [G (i & I & P)]. apply Rlt_le_trans with (w i); [exact P|]. unfold W. assert (II : In i (seq 0 n)) by (apply in_seq; lia).
    apply xsum_member; assumption. }
  assert (K : forall i, (i < n)%nat -> 0 <= w i / W /\ (0 <= f_size t w (INR N) i)%Z /\
     INR N * (w i / W) - 1 - INR N * (w i / W * (9 / 8 * (INR n * u)) + 3 / 2 * u) < IZR (f_size t w (INR N) i) <=
     INR N * (w i / W) + INR N * (w i / W * (9 / 8 * (INR n * u)) + 3 / 2 * u)).
  { intros i I. split; [apply Rmult_le_pos; [apply G, I|left; apply Rinv_0_lt_compat, WP]|].
    destruct (size_bounds n t w N i C G NB SB I) as [Y0 Y1]. fold W in Y1. apply Rabs_le_inv in Y1.
    unfold f_size. destruct (ztrunc_bounds _ Y0) as [Z0 Z1]. split; [exact Z0|]. lra. }
  assert (NU : INR N * u <= / 8589934592).
  { rewrite US. apply Rle_trans with (1048576 * / 9007199254740992); [apply Rmult_le_compat_r; lra|lra]. }
  assert (nU : 0 <= INR n * u <= / 8589934592).
  { rewrite US. split; [apply Rmult_le_pos; lra|]. apply Rle_trans with (1048576 * / 9007199254740992); [apply Rmult_le_compat_r; lra|lra]. }
  assert (NnU : 0 <= INR N * (INR n * u) <= / 8192).
  { split; [apply Rmult_le_pos; lra|]. apply Rle_trans with (1048576 * / 8589934592); [apply Rmult_le_compat; lra|lra]. }
  split.
  - intros i I. cbn zeta. fold W. destruct (K i I) as (S0 & Z0 & B). split; [exact Z0|].
    assert (S1 : w i / W <= 1).
    { apply div_unit; [exact WP|]. split; [apply G, I|]. unfold W. assert (II : In i (seq 0 n)) by (apply in_seq; lia).
      apply xsum_member; assumption. }
    assert (E : 0 <= INR N * (w i / W * (9 / 8 * (INR n * u)) + 3 / 2 * u) <= / 1000).
    { replace (INR N * (w i / W * (9 / 8 * (INR n * u)) + 3 / 2 * u)) with (w i / W * (9 / 8 * (INR N * (INR n * u))) + 3 / 2 * (INR N * u)) by ring.
      assert (0 <= INR N * u) by (apply Rmult_le_pos; lra).
      assert (0 <= w i / W * (9 / 8 * (INR N * (INR n * u)))) by (apply Rmult_le_pos; lra).
      assert (w i / W * (9 / 8 * (INR N * (INR n * u))) <= 1 * (9 / 8 * / 8192)) by (apply Rmult_le_compat; lra). lra. }
    lra.
  - assert (TOT : forall l, (forall i, In i l -> (i < n)%nat) ->
      let s := xsum l w / W in
      INR N * s - INR (length l) - INR N * (s * (9 / 8 * (INR n * u)) + INR (length l) * (3 / 2 * u)) <=
        IZR (fold_right (fun i s => (f_size t w (INR N) i + s)%Z) 0%Z l) <=
      INR N * s + INR N * (s * (9 / 8 * (INR n * u)) + INR (length l) * (3 / 2 * u))).
    { induction l as [|i l IH]; intro B.
      - unfold xsum. cbn. unfold Rdiv. rewrite !Rmult_0_l. lra.
      - cbn zeta in *. specialize (IH (fun j J => B j (or_intror J))). destruct (K i (B i (or_introl eq_refl))) as (S0 & Z0 & KB).
        cbn [fold_right length]. rewrite plus_IZR, S_INR. change (xsum (i :: l) w) with (w i + xsum l w).
        replace ((w i + xsum l w) / W) with (w i / W + xsum l w / W) by (field; lra). lra. }
    specialize (TOT (seq 0 n) (fun i I => ltac:(apply in_seq in I; lia))). cbn zeta in TOT. fold W in TOT.
    replace (W / W) with 1 in TOT by (field; lra). rewrite seq_length in TOT. fold (total_size t w N n) in TOT.
    assert (E : 0 <= INR N * (1 * (9 / 8 * (INR n * u)) + INR n * (3 / 2 * u)) <= / 1000).
    { replace (INR N * (1 * (9 / 8 * (INR n * u)) + INR n * (3 / 2 * u))) with (21 / 8 * (INR N * (INR n * u))) by field. lra. }
    rewrite (INR_IZR_INZ N), (INR_IZR_INZ n) in *.
    assert (A : IZR (Z.of_nat N - Z.of_nat n - 1) < IZR (total_size t w N n)) by (rewrite !minus_IZR; lra).
    assert (B : IZR (total_size t w N n) < IZR (Z.of_nat N + 1)) by (rewrite plus_IZR; lra).
    apply lt_IZR in A. apply lt_IZR in B. lia.
Qed.
(** A share of 29 draws in 100 gives 28: 100 times 0.29 is 28.999999999999996. *)
Theorem C88_combine_refuted : f_size (left_to_right 1) (fun i => nth i [rnd (29 / 100); rnd (71 / 100)] 0) 100 0 = 28%Z.
Proof.
  assert (A : rnd (29 / 100) = 5224175567749775 * / 18014398509481984) by (rewrite (rnd_is (-54) 5224175567749775) by lit; reflexivity).
  assert (B : rnd (71 / 100) = 6395111470866104 * / 9007199254740992) by (rewrite (rnd_is (-53) 6395111470866104) by lit; reflexivity).
  assert (T : fadd (rnd (29 / 100)) (rnd (71 / 100)) = 1).
  { rewrite A, B. apply Rle_antisym; [apply rnd_near_1; small; lra|]. unfold fadd.
    apply Rle_trans with (rnd (1 - / 18014398509481984)); [|apply rnd_le; lra].
    rewrite (rnd_tie (-53) 9007199254740991) by (cbn; first [lia | split; lra | lra]). cbn. lra. }
  assert (Q : f_weights (left_to_right 1) (fun i => nth i [rnd (29 / 100); rnd (71 / 100)] 0) 0 = rnd (29 / 100)).
  { unfold f_weights. cbn [left_to_right fsum nth]. rewrite T. unfold fdiv. replace (rnd (29 / 100) / 1) with (rnd (29 / 100)) by field.
    apply rnd_id, rnd_double. }
  assert (P : fmul 100 (rnd (29 / 100)) = 8162774324609023 * / 281474976710656).
  { unfold fmul. rewrite A. rewrite (rnd_is (-48) 8162774324609023) by lit. reflexivity. }
  unfold f_size. rewrite Q, P. rewrite Ztrunc_floor by lra. apply Zfloor_imp. cbn. lra.
Qed.

Print Assumptions C88_truncated_cdf.
Print Assumptions C88_truncated_ppf.
Print Assumptions C88_truncated_ppf_refuted.
Print Assumptions C88_hurdle_cdf.
Print Assumptions C88_hurdle_cdf_refuted.
Print Assumptions C88_hurdle_ppf.
Print Assumptions C88_hurdle_ppf_refuted.
Print Assumptions C88_mixture_weights.
Print Assumptions C88_mixture_cdf.
Print Assumptions C88_mixture_cdf_refuted.
Print Assumptions C88_sf.
Print Assumptions C88_isf.
Print Assumptions C88_eti.
Print Assumptions C88_logit.
Print Assumptions C88_expit.
Print Assumptions C88_constant_sample_refuted.
Print Assumptions C88_std.
Print Assumptions C88_combine.
Print Assumptions C88_combine_refuted.
