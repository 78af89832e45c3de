(** C12-C14: truncated distributions. *)
From Coq Require Import List Bool ZArith Reals Lra Lia.
From Verif Require Import Base XR SpecialModel LawModel LawSpec LawProofs LawProps ModModel ModSpec TruncProofs.
Import ListNotations.
Open Scope R_scope.

(** The base distribution d with distribution function F puts positive mass on the interval of proper bounds. *)
Definition truncatable (d : methods) (F : xr -> R) (l u : xr) : Prop :=
  lawful d F /\ proper_bound (kind_of d) l /\ proper_bound (kind_of d) u /\ 0 < between (kind_of d) F l u.

(* ------------------------------------------------------------------ C12 *)
(** Truncated(d, l, u) describes X conditioned on l <= X <= u: its cdf reports that conditional distribution function,
    its ppf is the generalised inverse, its pdf (discrete) the increments of the cdf, its logpdf the logarithm. *)
Theorem C12_truncated_is_conditional : forall d F l u, truncatable d F l u ->
  lawful (truncated d l u) (conditional (kind_of d) F l u).
Proof. intros d F l u (L & Pl & Pu & Hp). apply truncated_lawful; auto. Qed.

(** The cdf is non decreasing with values in [0, 1], 0 below the lower bound, 1 from the upper bound on. *)
Theorem C12_cdf_shape : forall d F l u, truncatable d F l u -> forall x, number x ->
  exists c, m_cdf (truncated d l u) x = Fin c /\ 0 <= c <= 1 /\
    (xlt x l -> c = 0) /\ (xle u x -> c = 1) /\
    (forall y c', xle x y -> m_cdf (truncated d l u) y = Fin c' -> c <= c').
Proof.
  intros d F l u T x Hx. pose proof (C12_truncated_is_conditional d F l u T) as LT. destruct T as (L & Pl & Pu & Hp).
  exists (conditional (kind_of d) F l u x).
  split; [apply (l_cdf _ _ LT); auto|]. split; [apply (F_range LT); auto|].
  pose proof (proper_number _ _ Pl) as Nl. pose proof (proper_number _ _ Pu) as Nu.
  split; [|split].
  - intro H. rewrite (cond_eq _ u). destruct (F_xmin L u Pu x Hx) as (A & _).
    assert (F x <= F (adjust_lower (kind_of d) l)).
    { destruct (kind_of d) eqn:K; cbn -[xsub]; [|apply (l_mono _ _ L), xlt_le; auto].
      destruct (l_disc _ _ L K) as [Df _]. destruct x as [a| | |]; [| | |exfalso; apply Hx; reflexivity].
      - rewrite Df. apply (l_mono _ _ L). destruct Pl as [[w ->]|[-> | ->]]; [|reflexivity|discriminate H].
        cbn. apply xle_fin. apply xlt_fin in H. pose proof (Rfloor_spec a).
        assert (Rfloor a < IZR w) as H1 by lra. unfold Rfloor in *. apply lt_IZR in H1. rewrite <- opp_IZR, <- plus_IZR. apply IZR_le. lia.
      - exfalso. destruct l; discriminate H.
      - apply (l_mono _ _ L), xle_ninf, minus1_number, Nl. }
    rewrite Rmax_left by lra. unfold Rdiv. ring.
  - intro H. rewrite (cond_eq _ u). pose proof (p_eq (d := d) (F := F) l u) as E.
    assert (F (xmin x u) = F u) as ->.
    { destruct (xmin_cases x u Hx Nu) as [[A ->]|[_ ->]]; [|auto]. f_equal. apply xle_antisym; auto. }
    rewrite <- E. rewrite Rmax_right by lra. field. lra.
  - intros y c' Hy E. destruct (xle_number _ _ Hy) as [_ Ny]. rewrite (l_cdf _ _ LT) in E by auto.
    inversion E; subst. apply (l_mono _ _ LT); auto.
Qed.

(** Discrete: the probabilities from the lower bound up to n add up to cdf(n), so to 1 at the upper bound; outside the
    interval they are 0. *)
Theorem C12_pmf_sums_to_cdf : forall d F a u, kind_of d = Discrete -> truncatable d F (Fin (IZR a)) u ->
  forall n : nat, exists ps,
    map (m_pdf (truncated d (Fin (IZR a)) u)) (map (fun z => Fin (IZR z)) (arange a (a + Z.of_nat n + 1))) = map Fin ps /\
    m_cdf (truncated d (Fin (IZR a)) u) (Fin (IZR (a + Z.of_nat n))) = Fin (rsum ps) /\ Forall (fun p => 0 <= p) ps.
Proof.
  intros d F a u K T. pose proof (C12_truncated_is_conditional _ _ _ _ T) as LT.
  set (G := conditional (kind_of d) F (Fin (IZR a)) u) in *.
  destruct (l_disc _ _ LT K) as [_ Dp].
  assert (Z0 : G (Fin (IZR a - 1)) = 0).
  { destruct (C12_cdf_shape _ _ _ _ T (Fin (IZR a - 1)) (number_fin _)) as (c & E & _ & H0 & _).
    rewrite (l_cdf _ _ LT) in E by auto. injection E as <-. apply H0. apply xlt_fin. lra. }
  intro n. exists (map (fun z => G (Fin (IZR z)) - G (Fin (IZR z - 1))) (arange a (a + Z.of_nat n + 1))). split; [|split].
  - rewrite !map_map. apply map_ext. intro z. apply Dp.
  - rewrite (l_cdf _ _ LT) by auto. f_equal. fold G. unfold arange.
    replace (Z.to_nat (a + Z.of_nat n + 1 - a)) with (S n) by lia. rewrite map_map.
    assert (S : forall m k, rsum (map (fun x => G (Fin (IZR (a + Z.of_nat x))) - G (Fin (IZR (a + Z.of_nat x) - 1))) (seq k m)) =
                G (Fin (IZR (a + Z.of_nat (k + m)) - 1)) - G (Fin (IZR (a + Z.of_nat k) - 1))).
    { induction m as [|m IH]; intro k; cbn [seq map rsum fold_right]; [rewrite Nat.add_0_r; lra|].
      change (fold_right Rplus 0 ?l) with (rsum l). rewrite IH.
      replace (IZR (a + Z.of_nat (S k)) - 1) with (IZR (a + Z.of_nat k)) by (rewrite Nat2Z.inj_succ, <- minus_IZR; f_equal; lia).
      replace (k + S m)%nat with (S k + m)%nat by lia. lra. }
    rewrite S. cbn [Nat.add]. replace (a + Z.of_nat 0)%Z with a by lia. rewrite Z0.
    replace (IZR (a + Z.of_nat (Datatypes.S n)) - 1) with (IZR (a + Z.of_nat n)) by (rewrite <- minus_IZR; f_equal; lia). lra.
  - apply Forall_forall. intros p Hp. apply in_map_iff in Hp. destruct Hp as (z & <- & _).
    assert (G (Fin (IZR z - 1)) <= G (Fin (IZR z))) by (apply (l_mono _ _ LT), xle_fin; lra). lra.
Qed.
Theorem C12_pmf_sums_to_one : forall d F a b, kind_of d = Discrete -> (a <= b)%Z ->
  truncatable d F (Fin (IZR a)) (Fin (IZR b)) ->
  exists ps,
    map (m_pdf (truncated d (Fin (IZR a)) (Fin (IZR b)))) (map (fun z => Fin (IZR z)) (arange a (b + 1))) = map Fin ps /\
    rsum ps = 1 /\ Forall (fun p => 0 <= p) ps.
Proof.
  intros d F a b K Hab T. destruct (C12_pmf_sums_to_cdf d F a _ K T (Z.to_nat (b - a))) as (ps & E & C & P).
  replace (a + Z.of_nat (Z.to_nat (b - a)))%Z with b in * by lia. exists ps. split; [auto|]. split; [|auto].
  destruct (C12_cdf_shape _ _ _ _ T (Fin (IZR b)) (number_fin _)) as (c & Ec & _ & _ & H1 & _).
  rewrite C in Ec. injection Ec as <-. apply H1. apply xle_refl; auto.
Qed.
(** Nothing outside the interval, whatever the kind. *)
Theorem C12_nothing_outside : forall d l u x, number l -> number u -> number x -> xlt x l \/ xlt u x ->
  m_pdf (truncated d l u) x = Fin 0 /\ m_logpdf (truncated d l u) x = NInf.
Proof.
  intros d l u x Nl Nu Nx H. assert (E : t_logpdf d l u x = NInf).
  { unfold t_logpdf. unfold xlt in H. destruct H as [-> | ->]; [reflexivity|rewrite orb_true_r; reflexivity]. }
  cbn. rewrite E. split; reflexivity.
Qed.
(** Continuous: where the base cdf has a derivative that its pdf reports, the truncated cdf has the derivative reported
    by the truncated pdf. *)
Theorem C12_pdf_is_derivative : forall d F l u, kind_of d = Continuous -> truncatable d F l u ->
  forall x f, xlt l (Fin x) -> xlt (Fin x) u -> m_pdf d (Fin x) = Fin f -> 0 <= f ->
  derivable_pt_lim (fun r => F (Fin r)) x f ->
  exists g, m_pdf (truncated d l u) (Fin x) = Fin g /\
    derivable_pt_lim (fun r => conditional (kind_of d) F l u (Fin r)) x g.
Proof.
  intros d F l u K (L & Pl & Pu & Hp) x f Hl Hu Ef Hf Df.
  set (p := between (kind_of d) F l u) in *. exists (f / p).
  pose proof (proper_number _ _ Pl) as Nl. pose proof (proper_number _ _ Pu) as Nu. split.
  - cbn [m_pdf truncated]. rewrite (t_logpdf_inside L l u Pl Pu); [|split; apply xlt_le; auto].
    rewrite (l_log _ _ L) by auto. rewrite Ef. apply xexp_log_ratio; auto.
  - (* near x the conditional distribution function is (F r - F l) / p *)
    assert (Near : exists del, 0 < del /\ forall r, Rabs (r - x) < del -> xle l (Fin r) /\ xle (Fin r) u).
    { assert (A : exists a, 0 < a /\ forall r, Rabs (r - x) < a -> xle l (Fin r)).
      { destruct l as [a| | |]; try discriminate Hl.
        - apply xlt_fin in Hl. exists (x - a). split; [lra|]. intros r Hr. apply xle_fin. apply Rabs_def2 in Hr. lra.
        - exists 1. split; [lra|]. intros. reflexivity. }
      assert (B : exists b, 0 < b /\ forall r, Rabs (r - x) < b -> xle (Fin r) u).
      { destruct u as [b| | |]; try discriminate Hu.
        - apply xlt_fin in Hu. exists (b - x). split; [lra|]. intros r Hr. apply xle_fin. apply Rabs_def2 in Hr. lra.
        - exists 1. split; [lra|]. intros. reflexivity. }
      destruct A as (a & Ha & A), B as (b & Hb & B). exists (Rmin a b). split; [apply Rmin_pos; auto|].
      intros r Hr. split; [apply A|apply B]; eapply Rlt_le_trans; eauto; [apply Rmin_l|apply Rmin_r]. }
    destruct Near as (del & Hdel & Near).
    assert (Val : forall r, Rabs (r - x) < del -> conditional (kind_of d) F l u (Fin r) = (F (Fin r) - F l) / p).
    { intros r Hr. destruct (Near r Hr) as [A B]. unfold conditional. fold p. unfold below. rewrite K.
      destruct (xmin_cases (Fin r) u) as [[_ ->]|[C _]]; auto; [|exfalso; apply (xlt_irrefl u); eapply xlt_le_trans; eauto].
      apply (l_mono _ _ L) in A. rewrite Rmax_right by lra. reflexivity. }
    intros e He. specialize (Df (e * p)). destruct Df as [del2 Df]; [apply Rmult_lt_0_compat; auto|].
    assert (Hm : 0 < Rmin del del2) by (apply Rmin_pos; [auto|apply cond_pos]).
    exists (mkposreal _ Hm). intros h Hh Hsmall. cbn in Hsmall.
    assert (Hh1 : Rabs h < del) by (eapply Rlt_le_trans; [exact Hsmall|apply Rmin_l]).
    assert (Hh2 : Rabs h < del2) by (eapply Rlt_le_trans; [exact Hsmall|apply Rmin_r]).
    rewrite (Val (x + h)) by (replace (x + h - x) with h by ring; auto).
    rewrite (Val x) by (replace (x - x) with 0 by ring; rewrite Rabs_R0; auto).
    replace (((F (Fin (x + h)) - F l) / p - (F (Fin x) - F l) / p) / h - f / p)
      with (((F (Fin (x + h)) - F (Fin x)) / h - f) * / p) by (field; split; lra).
    rewrite Rabs_mult, (Rabs_right (/ p)) by (left; apply Rinv_0_lt_compat; auto).
    apply Rmult_lt_reg_r with p; [auto|]. rewrite Rmult_assoc, Rinv_l by lra. rewrite Rmult_1_r. apply Df; auto.
Qed.

(** A bound that is not an integer breaks this for discrete bases: the probabilities no longer add up to 1. *)
Theorem C12_fractional_bound_refuted :
  ~ (forall d F l u, kind_of d = Discrete -> lawful d F -> 0 < between (kind_of d) F (Fin l) (Fin u) ->
     forall a b ps, IZR a < l -> u < IZR b ->
     map (m_pdf (truncated d (Fin l) (Fin u))) (map (fun z => Fin (IZR z)) (arange a b)) = map Fin ps -> rsum ps = 1).
Proof.
  intro H.
  assert (V : forall z, clip01 (IZR z / 6) = IZR (Z.max 0 (Z.min z 6)) / 6).
  { intro z. pose proof (clip01_cases (IZR z / 6)) as C.
    destruct (Z_le_gt_dec z 0); [rewrite Z.max_l by lia; apply IZR_le in l; lra|].
    destruct (Z_le_gt_dec z 6); [rewrite Z.max_r, Z.min_l by lia; apply IZR_le in l; assert (1 <= IZR z) by (apply IZR_le; lia); lra|].
    rewrite Z.max_r, Z.min_r by lia. assert (7 <= IZR z) by (apply IZR_le; lia). lra. }
  assert (FV : forall z, die_F 6 (Fin (IZR z)) = IZR (Z.max 0 (Z.min z 6)) / 6).
  { intro z. cbn [die_F]. rewrite Rfloor_IZR. apply V. }
  assert (F15 : die_F 6 (Fin (3 / 2)) = 1 / 6).
  { cbn [die_F]. rewrite (Rfloor_unique _ 1) by lra. rewrite V. reflexivity. }
  specialize (H (die 6) (die_F 6) (5 / 2) 5 eq_refl (die_lawful 6 ltac:(lia))).
  assert (L6 := die_lawful 6 ltac:(lia)).
  assert (E15 : xsub (Fin (5 / 2)) (Fin 1) = Fin (3 / 2)) by (cbn; f_equal; field).
  assert (B : 0 < between (kind_of (die 6)) (die_F 6) (Fin (5 / 2)) (Fin 5)).
  { unfold between, below. cbn [kind_of die]. rewrite E15, F15. rewrite (FV 5%Z). cbn. lra. }
  specialize (H B 2%Z 6%Z [0; 1 / 4; 1 / 4; 1 / 4]).
  assert (C : rsum [0; 1 / 4; 1 / 4; 1 / 4] = 1 -> False) by (unfold rsum; cbn; lra).
  apply C, H; [lra|lra|]. clear H C.
  assert (In3 : forall z, (3 <= z <= 5)%Z -> m_pdf (truncated (die 6) (Fin (5 / 2)) (Fin 5)) (Fin (IZR z)) = Fin (1 / 4)).
  { intros z Hz. cbn [m_pdf truncated]. unfold t_logpdf. cbn [kind_of die adjust_lower]. rewrite E15.
    assert (3 <= IZR z <= 5) as Hz' by (split; apply IZR_le; lia).
    cbn [xltb]. rewrite !Rltb_false by lra. cbn [orb].
    rewrite (l_log _ _ L6), !(l_cdf _ _ L6), F15, (FV 5%Z) by auto.
    destruct (l_disc _ _ L6 eq_refl) as [_ Dp]. rewrite Dp, <- minus_IZR, !FV.
    replace (Z.max 0 (Z.min z 6)) with z by lia. replace (Z.max 0 (Z.min (z - 1) 6)) with (z - 1)%Z by lia.
    change (Z.max 0 (Z.min 5 6)) with 5%Z. rewrite minus_IZR.
    change (xsub (Fin (5 / 6)) (Fin (1 / 6))) with (Fin (5 / 6 - 1 / 6)).
    rewrite xexp_log_ratio by lra. f_equal. field. }
  assert (Out2 : m_pdf (truncated (die 6) (Fin (5 / 2)) (Fin 5)) (Fin 2) = Fin 0).
  { apply C12_nothing_outside; auto. left. apply xlt_fin. lra. }
  change (arange 2 6) with [2; 3; 4; 5]%Z. cbn [map]. rewrite Out2, !In3 by lia. reflexivity.
Qed.

(* ------------------------------------------------------------------ C13 *)
(** ppf(q) is the smallest x with cdf(x) >= q and lies between the bounds, for every 0 < q <= 1. *)
Theorem C13_ppf_inverts : forall d F l u, truncatable d F l u -> forall q, 0 < q <= 1 ->
  within l u (m_ppf (truncated d l u) (Fin q)) /\
  forall x c, number x -> m_cdf (truncated d l u) x = Fin c -> (xle (m_ppf (truncated d l u) (Fin q)) x <-> q <= c).
Proof.
  intros d F l u T q Hq. pose proof (C12_truncated_is_conditional d F l u T) as LT. destruct T as (L & Pl & Pu & Hp). split.
  - apply (t_ppf_within L); auto.
  - intros x c Hx E. rewrite (l_cdf _ _ LT) in E by auto. inversion E; subst. apply (ppf_gal LT); auto.
Qed.
(** For continuous bases it is a genuine inverse. *)
Theorem C13_ppf_exact : forall d F l u, truncatable d F l u -> kind_of d = Continuous -> forall q, 0 < q < 1 ->
  m_cdf (truncated d l u) (m_ppf (truncated d l u) (Fin q)) = Fin q.
Proof.
  intros d F l u T K q Hq. pose proof (C12_truncated_is_conditional d F l u T) as LT.
  rewrite (l_cdf _ _ LT) by (apply (ppf_number LT); lra). f_equal. apply (l_cont _ _ LT); auto.
Qed.
(** Probabilities outside [0, 1] give nan. *)
Theorem C13_ppf_nan : forall d l u q, q < 0 \/ 1 < q -> m_ppf (truncated d l u) (Fin q) = NaN.
Proof.
  intros d l u q H. cbn [m_ppf truncated]. unfold t_ppf. cbn [xltb].
  destruct H; [rewrite (Rltb_true q 0) by auto; reflexivity|rewrite (Rltb_true 1 q) by auto; rewrite orb_true_r; reflexivity].
Qed.
(** Samples are between the bounds, for all positive uniform draws. *)
Theorem C13_rvs_within : forall d F l u, truncatable d F l u -> forall us, Forall (fun v => 0 < v <= 1) us ->
  length (t_rvs d l u us) = length us /\ Forall (within l u) (t_rvs d l u us).
Proof.
  intros d F l u (L & Pl & Pu & Hp) us H. split; [apply map_length|].
  unfold t_rvs. apply Forall_map. eapply Forall_impl; [|exact H]. intros v Hv. apply (t_ppf_within L); auto.
Qed.
(** A draw of exactly 0 from a truncated discrete distribution falls below the lower bound. *)
Theorem C13_zero_refuted :
  ~ (forall d F l u, truncatable d F l u -> forall q, 0 <= q <= 1 -> within l u (m_ppf (truncated d l u) (Fin q))).
Proof.
  intro H. specialize (H (die 6) (die_F 6) (Fin 3) PInf).
  assert (F2 : die_F 6 (Fin 2) = 1 / 3).
  { cbn. rewrite (Rfloor_IZR 2). pose proof (clip01_cases (2 / 6)). lra. }
  assert (E2 : xsub (Fin 3) (Fin 1) = Fin 2) by (cbn; f_equal; ring).
  assert (B : between (kind_of (die 6)) (die_F 6) (Fin 3) PInf = 2 / 3).
  { unfold between, below. cbn [kind_of die]. rewrite E2, F2. cbn. field. }
  assert (T : truncatable (die 6) (die_F 6) (Fin 3) PInf).
  { refine (conj _ (conj _ (conj _ _))); [apply die_lawful; lia|left; exists 3%Z; reflexivity|right; left; reflexivity|]. rewrite B. lra. }
  specialize (H T 0 ltac:(lra)). destruct T as (L & Pl & Pu & Hp).
  cbn [m_ppf truncated] in H. rewrite (t_ppf_value L) in H by (auto; lra).
  cbn [kind_of die adjust_lower] in H. rewrite E2, F2 in H. rewrite Rmult_0_l, Rplus_0_r in H. cbn [m_ppf die] in H.
  rewrite !Rleb_true in H by lra. cbn [andb] in H. destruct H as [H _]. apply xle_fin in H.
  assert (Rceil (1 / 3 * 6) = 2) as E.
  { unfold Rceil. rewrite (Rfloor_unique _ (-2)) by lra. lra. }
  rewrite E in H. lra.
Qed.
Example C13_example : truncatable unif unif_F (Fin (1 / 4)) (Fin (3 / 4)) /\ truncatable (die 6) (die_F 6) (Fin 2) (Fin 4) /\
  m_cdf (truncated unif (Fin (1 / 4)) (Fin (3 / 4))) (Fin (1 / 2)) = Fin (1 / 2).
Proof.
  assert (T : truncatable unif unif_F (Fin (1 / 4)) (Fin (3 / 4))).
  { refine (conj _ (conj _ (conj _ _))); [apply unif_lawful|apply number_fin|apply number_fin|]. unfold between, below. cbn.
    pose proof (clip01_cases (1 / 4)). pose proof (clip01_cases (3 / 4)). lra. }
  split; [exact T|]. split.
  - refine (conj _ (conj _ (conj _ _))); [apply die_lawful; lia|left; exists 2%Z; reflexivity|left; exists 4%Z; reflexivity|].
    unfold between, below. cbn [kind_of die]. replace (xsub (Fin 2) (Fin 1)) with (Fin 1) by (cbn; f_equal; ring). cbn.
    rewrite (Rfloor_IZR 4), (Rfloor_IZR 1). pose proof (clip01_cases (4 / 6)). pose proof (clip01_cases (1 / 6)). lra.
  - destruct T as (L & Pl & Pu & Hp). cbn [m_cdf truncated]. rewrite (t_cdf_value L) by auto. f_equal.
    unfold conditional, between, below. cbn [kind_of unif]. unfold xmin, xleb. cbn.
    rewrite (Rltb_true (1 / 2) (3 / 4)) by lra. cbn.
    pose proof (clip01_cases (1 / 4)). pose proof (clip01_cases (3 / 4)). pose proof (clip01_cases (1 / 2)).
    replace (clip01 (1 / 2)) with (1 / 2) by lra. replace (clip01 (1 / 4)) with (1 / 4) by lra.
    replace (clip01 (3 / 4)) with (3 / 4) by lra. rewrite Rmax_right by lra. field.
Qed.

(** A die conditioned on 2..4: the truncated distribution gives 2 thirds to the faces 2 and 3. *)
Example C12_example : truncatable (die 6) (die_F 6) (Fin 2) (Fin 4) /\ m_cdf (truncated (die 6) (Fin 2) (Fin 4)) (Fin 3) = Fin (2 / 3).
Proof.
  pose proof C13_example as (_ & T & _). split; [exact T|].
  rewrite (l_cdf _ _ (C12_truncated_is_conditional _ _ _ _ T)) by discriminate. f_equal. unfold conditional, between, below. cbn [kind_of die].
  replace (xsub (Fin 2) (Fin 1)) with (Fin 1) by (cbn; f_equal; ring). unfold xmin, xleb. cbn. rewrite (Rltb_true 3 4) by lra. cbn.
  rewrite (Rfloor_IZR 4), (Rfloor_IZR 1), (Rfloor_IZR 3). pose proof (clip01_cases (4 / 6)). pose proof (clip01_cases (1 / 6)). pose proof (clip01_cases (3 / 6)).
  replace (clip01 (4 / 6)) with (4 / 6) by lra. replace (clip01 (1 / 6)) with (1 / 6) by lra. replace (clip01 (3 / 6)) with (3 / 6) by lra.
  rewrite Rmax_right by lra. field.
Qed.

(* ------------------------------------------------------------------ C14 *)
(** Without bounds nothing changes. *)
Theorem C14_unbounded : forall d F, lawful d F -> forall x, number x ->
  let t := truncated d (lower_or_inf None) (upper_or_inf None) in
  m_cdf t x = m_cdf d x /\ m_logpdf t x = m_logpdf d x /\
  (forall f, 0 <= f -> m_pdf d x = Fin f -> m_pdf t x = Fin f) /\
  (forall q, 0 <= q <= 1 -> m_ppf t (Fin q) = m_ppf d (Fin q)).
Proof.
  intros d F L x Hx t. unfold t, lower_or_inf, upper_or_inf.
  assert (Lo : forall k, adjust_lower k NInf = NInf) by (destruct k; reflexivity).
  assert (Pn : forall k, proper_bound k NInf) by (destruct k; cbn; auto).
  assert (Pp : forall k, proper_bound k PInf) by (destruct k; cbn; auto).
  assert (B : between (kind_of d) F NInf PInf = 1).
  { unfold between. rewrite below_adjust, Lo, (l_lo _ _ L), (l_hi _ _ L). ring. }
  assert (W : within NInf PInf x) by (split; [apply xle_ninf|apply xle_pinf]; auto).
  assert (E1 : m_cdf (truncated d NInf PInf) x = m_cdf d x).
  { cbn [m_cdf truncated]. rewrite (t_cdf_value L) by (auto; rewrite B; lra). rewrite (l_cdf _ _ L) by auto. f_equal.
    unfold conditional. rewrite B, below_adjust, Lo, (l_lo _ _ L).
    destruct (xmin_cases x PInf Hx number_pinf) as [[_ ->]|[C _]]; [|destruct x; discriminate C].
    pose proof (F_range L x Hx). rewrite Rmax_right by lra. field. }
  assert (E2 : m_logpdf (truncated d NInf PInf) x = m_logpdf d x).
  { cbn [m_logpdf truncated]. rewrite (t_logpdf_inside L) by auto. rewrite B. cbn [xlog]. rewrite Rltb_true by lra. rewrite ln_1.
    destruct (m_logpdf d x); cbn; try reflexivity. f_equal. ring. }
  split; [exact E1|]. split; [exact E2|]. split.
  - intros f Hf Ef. cbn [m_pdf truncated]. cbn [m_logpdf truncated] in E2. rewrite E2, (l_log _ _ L) by auto. rewrite Ef. apply xexp_xlog_fin; auto.
  - intros q Hq. cbn [m_ppf truncated]. rewrite (t_ppf_value L) by auto. rewrite B, Lo, (l_lo _ _ L).
    do 2 f_equal. ring.
Qed.

(** Truncating to [l1, u1] and then to [l2, u2] is truncating to the intersection, provided that has positive mass. *)
Lemma xmax_proper k a b : proper_bound k a -> proper_bound k b -> proper_bound k (xmax a b).
Proof. unfold xmax. destruct (xleb a b); auto. Qed.
Lemma xmin_proper k a b : proper_bound k a -> proper_bound k b -> proper_bound k (xmin a b).
Proof. unfold xmin. destruct (xleb a b); auto. Qed.
Lemma adjust_mono k a b : xle a b -> xle (adjust_lower k a) (adjust_lower k b).
Proof.
  destruct k; cbn [adjust_lower]; auto. destruct a, b; try discriminate; try reflexivity.
  rewrite xle_fin. intro. cbn. apply xle_fin. lra.
Qed.

Lemma F_min {d F} (L : lawful d F) a b : number a -> number b -> F (xmin a b) = Rmin (F a) (F b).
Proof.
  intros Na Nb. destruct (xmin_cases a b Na Nb) as [[H ->]|[H ->]].
  - rewrite Rmin_left; auto. apply (l_mono _ _ L); auto.
  - rewrite Rmin_right; auto. apply (l_mono _ _ L), xlt_le; auto.
Qed.
Lemma below_max {d F} (L : lawful d F) k a b : number a -> number b -> below k F (xmax a b) = Rmax (below k F a) (below k F b).
Proof.
  intros Na Nb. rewrite !below_adjust. destruct (xmax_cases a b Na Nb) as [[H ->]|[H ->]].
  - rewrite Rmax_right; auto. apply (l_mono _ _ L), adjust_mono; auto.
  - rewrite Rmax_left; auto. apply (l_mono _ _ L), adjust_mono, xlt_le; auto.
Qed.

Theorem C14_nested : forall d F l1 u1 l2 u2, lawful d F ->
  (forall b, In b [l1; u1; l2; u2] -> proper_bound (kind_of d) b) ->
  0 < between (kind_of d) F (xmax l1 l2) (xmin u1 u2) ->
  let twice := truncated (truncated d l1 u1) l2 u2 in
  let once := truncated d (xmax l1 l2) (xmin u1 u2) in
  (forall x, number x -> m_cdf twice x = m_cdf once x) /\
  (forall q, 0 < q <= 1 -> m_ppf twice (Fin q) = m_ppf once (Fin q)) /\
  (forall x f, number x -> m_pdf d x = Fin f -> 0 <= f -> m_pdf twice x = m_pdf once x).
Proof.
  intros d F l1 u1 l2 u2 L Pb Hpos twice once.
  assert (P1 : proper_bound (kind_of d) l1) by (apply Pb; cbn; auto).
  assert (P2 : proper_bound (kind_of d) u1) by (apply Pb; cbn; auto).
  assert (P3 : proper_bound (kind_of d) l2) by (apply Pb; cbn; auto).
  assert (P4 : proper_bound (kind_of d) u2) by (apply Pb; cbn; auto 6).
  assert (N1 := proper_number _ _ P1). assert (N2 := proper_number _ _ P2).
  assert (N3 := proper_number _ _ P3). assert (N4 := proper_number _ _ P4).
  set (k := kind_of d) in *.
  assert (Ep : between k F (xmax l1 l2) (xmin u1 u2) = Rmin (F u1) (F u2) - Rmax (below k F l1) (below k F l2)).
  { unfold between. rewrite (below_max L), (F_min L); auto. }
  set (p := between k F (xmax l1 l2) (xmin u1 u2)) in *.
  assert (Hp1 : 0 < between k F l1 u1).
  { unfold between. pose proof (Rmin_l (F u1) (F u2)). pose proof (Rmax_l (below k F l1) (below k F l2)). lra. }
  set (p1 := between k F l1 u1) in *.
  pose proof (truncated_lawful L l1 u1 P1 P2 Hp1) as L1. fold k in L1.
  set (G := conditional k F l1 u1) in *.
  assert (Ep1 : p1 = F u1 - below k F l1) by reflexivity.
  assert (Gval : forall x, number x -> G x = Rmax 0 (Rmin (F x) (F u1) - below k F l1) / p1).
  { intros x Hx. unfold G, conditional. fold p1. rewrite (F_min L); auto. }
  assert (Gbelow : below k G l2 = Rmax 0 (Rmin (below k F l2) (F u1) - below k F l1) / p1).
  { rewrite !(below_adjust k _ l2). apply Gval. apply adjust_number; auto. }
  assert (inv1 : 0 < / p1) by (apply Rinv_0_lt_compat; auto).
  assert (Hp2 : between k G l2 u2 = p / p1).
  { unfold between. rewrite Gbelow, Gval by auto. rewrite Ep. unfold Rdiv. rewrite <- Rmult_minus_distr_r. f_equal.
    unfold Rmin, Rmax in *. repeat destruct (Rle_dec _ _); lra. }
  assert (Hp2' : 0 < between k G l2 u2) by (rewrite Hp2; apply Rmult_lt_0_compat; auto).
  pose proof (truncated_lawful (d := truncated d l1 u1) L1 l2 u2 P3 P4 Hp2') as L2. cbn [kind_of truncated] in L2. fold k twice in L2.
  pose proof (truncated_lawful L (xmax l1 l2) (xmin u1 u2) (xmax_proper _ _ _ P1 P3) (xmin_proper _ _ _ P2 P4) Hpos) as LO. fold k once in LO.
  assert (Same : forall x, number x -> conditional k G l2 u2 x = conditional k F (xmax l1 l2) (xmin u1 u2) x).
  { intros x Hx. unfold conditional. fold p. rewrite Hp2.
    rewrite (F_min L1) by auto. rewrite Gbelow, !Gval by auto. rewrite (F_min L), (F_min L), (below_max L) by (auto; apply xmin_number; auto).
    assert (Mn : forall a b, Rmin (a / p1) (b / p1) = Rmin a b / p1).
    { intros a b. unfold Rdiv. unfold Rmin. repeat destruct (Rle_dec _ _); auto.
      - exfalso. apply n. apply Rmult_le_reg_r with (/ p1); auto.
      - exfalso. apply n. apply Rmult_le_compat_r; lra. }
    rewrite Mn. unfold Rdiv at 2 3. rewrite <- Rmult_minus_distr_r.
    assert (Mx : forall a, Rmax 0 (a * / p1) = Rmax 0 a * / p1).
    { intro a. rewrite (Rmult_comm a), <- (Rmult_0_r (/ p1)) at 1. rewrite RmaxRmult by lra. ring. }
    rewrite Mx.
    replace (Rmax 0 (Rmin (Rmax 0 (Rmin (F x) (F u1) - below k F l1)) (Rmax 0 (Rmin (F u2) (F u1) - below k F l1)) -
                Rmax 0 (Rmin (below k F l2) (F u1) - below k F l1)))
      with (Rmax 0 (Rmin (F x) (Rmin (F u1) (F u2)) - Rmax (below k F l1) (below k F l2))).
    - field. split; lra.
    - unfold Rmin, Rmax in *. repeat destruct (Rle_dec _ _); lra. }
  split; [|split].
  - intros x Hx. rewrite (l_cdf _ _ L2), (l_cdf _ _ LO) by auto. f_equal. apply Same; auto.
  - intros q Hq. pose proof (ppf_number L2 q Hq). pose proof (ppf_number LO q Hq).
    apply xle_antisym.
    + apply (ppf_gal L2); auto. rewrite Same by auto. apply (ppf_reaches LO); auto.
    + apply (ppf_gal LO); auto. rewrite <- Same by auto. apply (ppf_reaches L2); auto.
  - intros x f Hx Ef Hf. cbn [m_pdf twice once truncated].
    destruct (xle_dec l1 x) as [A1|A1], (xle_dec x u1) as [A2|A2], (xle_dec l2 x) as [A3|A3], (xle_dec x u2) as [A4|A4].
    1: { rewrite (t_logpdf_inside (d := truncated d l1 u1) L1) by (auto; split; auto).
         cbn [m_logpdf truncated kind_of]. fold k. rewrite Hp2. rewrite (t_logpdf_inside L l1 u1 P1 P2) by (split; auto). fold k p1.
         rewrite (t_logpdf_inside L) by
           (first [apply xmax_proper; auto | apply xmin_proper; auto |
            split; [destruct (xmax_cases l1 l2 N1 N3) as [[_ ->]|[_ ->]]; auto|destruct (xmin_cases u1 u2 N2 N4) as [[_ ->]|[_ ->]]; auto]]).
         fold k p. rewrite (l_log _ _ L) by auto. rewrite Ef. rewrite xexp_log_ratio by auto.
         cbn [xlog]. rewrite (Rltb_true 0 p1), (Rltb_true 0 (p / p1)) by (auto; apply Rmult_lt_0_compat; auto).
         destruct (Rltb_spec 0 f).
         - cbn. f_equal. replace (ln f + - ln p1 + - ln (p / p1)) with (ln (f / p)).
           + apply exp_ln. apply Rmult_lt_0_compat; auto. apply Rinv_0_lt_compat; auto.
           + unfold Rdiv. rewrite !ln_mult, !ln_Rinv; auto; [ring|apply Rinv_0_lt_compat; auto].
         - destruct (Reqb_spec f 0); [|lra]. cbn. f_equal. subst. field. lra. }
    all: rewrite (t_logpdf_outside (d := d) (xmax l1 l2) (xmin u1 u2) (xmax_proper _ _ _ P1 P3) (xmin_proper _ _ _ P2 P4) x Hx);
      [|intros [B1 B2]; assert (xle l1 (xmax l1 l2)) by (destruct (xmax_cases l1 l2 N1 N3) as [[? ->]|[? ->]]; auto using xle_refl);
        assert (xle l2 (xmax l1 l2)) by (destruct (xmax_cases l1 l2 N1 N3) as [[? ->]|[? ->]]; auto using xle_refl, xlt_le);
        assert (xle (xmin u1 u2) u1) by (destruct (xmin_cases u1 u2 N2 N4) as [[? ->]|[? ->]]; auto using xle_refl, xlt_le);
        assert (xle (xmin u1 u2) u2) by (destruct (xmin_cases u1 u2 N2 N4) as [[? ->]|[? ->]]; auto using xle_refl);
        first [apply A1; eapply xle_trans; eassumption | apply A2; eapply xle_trans; eassumption
              |apply A3; eapply xle_trans; eassumption | apply A4; eapply xle_trans; eassumption]].
    all: destruct (xle_dec l2 x) as [C3|C3]; [destruct (xle_dec x u2) as [C4|C4]|]; try contradiction.
    all: try (rewrite (t_logpdf_outside (d := truncated d l1 u1) l2 u2 P3 P4 x Hx) by (intros [? ?]; contradiction); reflexivity).
    all: rewrite (t_logpdf_inside (d := truncated d l1 u1) L1 l2 u2 P3 P4) by (split; auto);
      cbn [m_logpdf truncated kind_of]; fold k; rewrite (t_logpdf_outside (d := d) l1 u1 P1 P2 x Hx) by (intros [? ?]; contradiction);
      cbn [xlog]; rewrite (Rltb_true 0 _ Hp2'); reflexivity.
Qed.
Lemma xmax_comm a b : number a -> number b -> xmax a b = xmax b a.
Proof.
  intros Na Nb. destruct (xmax_cases a b Na Nb) as [[A ->]|[A ->]].
  - destruct (xmax_cases b a Nb Na) as [[B ->]|[B ->]]; auto. apply xle_antisym; auto.
  - destruct (xmax_cases b a Nb Na) as [[B ->]|[B ->]]; auto.
    exfalso. apply (xlt_irrefl a). eapply xlt_le_trans; [exact B|]. apply xlt_le; auto.
Qed.
Lemma xmin_comm a b : number a -> number b -> xmin a b = xmin b a.
Proof.
  intros Na Nb. destruct (xmin_cases a b Na Nb) as [[A ->]|[A ->]].
  - destruct (xmin_cases b a Nb Na) as [[B ->]|[B ->]]; auto. apply xle_antisym; auto.
  - destruct (xmin_cases b a Nb Na) as [[B ->]|[B ->]]; auto.
    exfalso. apply (xlt_irrefl a). eapply xlt_le_trans; [exact B|]. apply xlt_le; auto.
Qed.
(** The order of two truncations does not matter. *)
Theorem C14_order_irrelevant : forall d F l1 u1 l2 u2, lawful d F ->
  (forall b, In b [l1; u1; l2; u2] -> proper_bound (kind_of d) b) ->
  0 < between (kind_of d) F (xmax l1 l2) (xmin u1 u2) ->
  let a := truncated (truncated d l1 u1) l2 u2 in
  let b := truncated (truncated d l2 u2) l1 u1 in
  (forall x, number x -> m_cdf a x = m_cdf b x) /\
  (forall q, 0 < q <= 1 -> m_ppf a (Fin q) = m_ppf b (Fin q)) /\
  (forall x f, number x -> m_pdf d x = Fin f -> 0 <= f -> m_pdf a x = m_pdf b x).
Proof.
  intros d F l1 u1 l2 u2 L Pb Hpos a b.
  assert (N : forall c, In c [l1; u1; l2; u2] -> number c) by (intros c Hc; eapply proper_number; eauto).
  assert (Emax : xmax l1 l2 = xmax l2 l1) by (apply xmax_comm; apply N; cbn; tauto).
  assert (Emin : xmin u1 u2 = xmin u2 u1) by (apply xmin_comm; apply N; cbn; tauto).
  destruct (C14_nested d F l1 u1 l2 u2 L Pb Hpos) as (A1 & A2 & A3).
  assert (Hpos' := Hpos). rewrite Emax, Emin in Hpos'.
  destruct (C14_nested d F l2 u2 l1 u1 L) as (B1 & B2 & B3); [|exact Hpos'|].
  { intros c Hc. apply Pb. cbn in *. tauto. }
  rewrite <- Emax, <- Emin in B1, B2, B3. unfold a, b. split; [|split].
  - intros x Hx. rewrite A1, B1; auto.
  - intros q Hq. rewrite A2, B2; auto.
  - intros x f Hx Ef Hf. rewrite (A3 x f), (B3 x f); auto.
Qed.
Example C14_example : 0 < between Continuous unif_F (xmax (Fin (1 / 4)) NInf) (xmin PInf (Fin (1 / 2))).
Proof.
  unfold between, below, xmax, xmin, xleb. cbn. pose proof (clip01_cases (1 / 4)). pose proof (clip01_cases (1 / 2)). lra.
Qed.

Print Assumptions C12_truncated_is_conditional.
Print Assumptions C12_pmf_sums_to_one.
Print Assumptions C12_pdf_is_derivative.
Print Assumptions C13_ppf_inverts.
Print Assumptions C14_unbounded.
Print Assumptions C14_nested.
