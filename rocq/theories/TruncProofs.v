(** Truncated distributions are lawful. *)
From Coq Require Import List Bool ZArith Reals Lra Lia.
From Verif Require Import Base XR SpecialModel LawModel LawSpec LawProofs ModModel ModSpec.
Import ListNotations.
Open Scope R_scope.

Lemma xle_dec a b : {xle a b} + {~ xle a b}.
Proof. unfold xle. destruct (xleb a b); [left; reflexivity|right; discriminate]. Qed.
Lemma xlt_dec a b : {xlt a b} + {~ xlt a b}.
Proof. unfold xlt. destruct (xltb a b); [left; reflexivity|right; discriminate]. Qed.
Lemma not_xlt a b : number a -> number b -> ~ xlt a b -> xle b a.
Proof. intros Ha Hb H. destruct (xle_cases b a Hb Ha); [auto|contradiction]. Qed.
Lemma not_xle a b : number a -> number b -> ~ xle a b -> xlt b a.
Proof. intros Ha Hb H. destruct (xle_cases a b Ha Hb); [contradiction|auto]. Qed.
Lemma xltb_dec a b : (xltb a b = true /\ xlt a b) \/ (xltb a b = false /\ ~ xlt a b).
Proof. unfold xlt. destruct (xltb a b); [left; auto|right; split; congruence]. Qed.
Lemma xmin_cases a b : number a -> number b ->
  (xle a b /\ xmin a b = a) \/ (xlt b a /\ xmin a b = b).
Proof.
  intros Ha Hb. unfold xmin. destruct (xleb a b) eqn:E; [left; auto|right]. split; [|auto].
  apply not_xle; auto. unfold xle. congruence.
Qed.
Lemma xmax_cases a b : number a -> number b ->
  (xle a b /\ xmax a b = b) \/ (xlt b a /\ xmax a b = a).
Proof.
  intros Ha Hb. unfold xmax. destruct (xleb a b) eqn:E; [left; auto|right]. split; [|auto].
  apply not_xle; auto. unfold xle. congruence.
Qed.
Lemma xmin_number a b : number a -> number b -> number (xmin a b).
Proof. intros; destruct (xmin_cases a b) as [[_ ->]|[_ ->]]; auto. Qed.
Lemma xmax_number a b : number a -> number b -> number (xmax a b).
Proof. intros; destruct (xmax_cases a b) as [[_ ->]|[_ ->]]; auto. Qed.
Lemma number_fin r : number (Fin r). Proof. discriminate. Qed.
Lemma number_ninf : number NInf. Proof. discriminate. Qed.
Lemma number_pinf : number PInf. Proof. discriminate. Qed.
Global Hint Resolve number_fin number_ninf number_pinf : core.

Lemma proper_number k x : proper_bound k x -> number x.
Proof. destruct k; cbn; auto. intros [[z ->]|[-> | ->]]; auto. Qed.
Lemma minus1_number x : number x -> number (xsub x (Fin 1)).
Proof. intro H. destruct x; try discriminate. exfalso; apply H; reflexivity. Qed.
Lemma minus1_le x : number x -> xle (xsub x (Fin 1)) x.
Proof. intro H. destruct x; try reflexivity; [apply xle_fin; lra|]. exfalso; apply H; reflexivity. Qed.
Lemma below_adjust k F l : below k F l = F (adjust_lower k l).
Proof. destruct k; reflexivity. Qed.
Lemma adjust_number k l : number l -> number (adjust_lower k l).
Proof. destruct k; cbn -[xsub]; auto using minus1_number. Qed.
Lemma adjust_le k l : number l -> xle (adjust_lower k l) l.
Proof. destruct k; cbn -[xsub]; intros; [apply minus1_le|apply xle_refl]; auto. Qed.

Lemma xlog_xexp y : xlog (xexp y) = y.
Proof.
  destruct y; cbn; try reflexivity.
  - rewrite Rltb_true by apply exp_pos. rewrite ln_exp. reflexivity.
  - rewrite Rltb_false by lra. rewrite Reqb_refl. reflexivity.
Qed.
Lemma xexp_xlog_fin r : 0 <= r -> xexp (xlog (Fin r)) = Fin r.
Proof.
  intro H. cbn. destruct (Rltb_spec 0 r); cbn; [rewrite exp_ln; auto|].
  destruct (Reqb_spec r 0); cbn; [f_equal; lra|lra].
Qed.
(** exp(log r - log p) = r / p. *)
Lemma xexp_log_ratio r p : 0 <= r -> 0 < p -> xexp (xsub (xlog (Fin r)) (xlog (Fin p))) = Fin (r / p).
Proof.
  intros Hr Hp. cbn. rewrite (Rltb_true 0 p Hp). destruct (Rltb_spec 0 r); cbn.
  - f_equal. replace (ln r + - ln p) with (ln (r / p)); [apply exp_ln; apply Rdiv_lt_0_compat; auto|].
    unfold Rdiv. rewrite ln_mult, ln_Rinv; auto. apply Rinv_0_lt_compat; auto.
  - destruct (Reqb_spec r 0); cbn; [|lra]. f_equal. subst. field. lra.
Qed.

Lemma pos_not_xlt r : 0 < r -> xltb (Fin r) (Fin 0) = false.
Proof. intro. cbn. apply Rltb_false. lra. Qed.

Section Truncation.
Context {d : methods} {F : xr -> R} (L : lawful d F) (l u : xr).
Context (Pl : proper_bound (kind_of d) l) (Pu : proper_bound (kind_of d) u).
Let k := kind_of d.
Let p := between k F l u.
Context (Hp : 0 < between (kind_of d) F l u).

Let Nl : number l. Proof. exact (proper_number _ _ Pl). Qed.
Let Nu : number u. Proof. exact (proper_number _ _ Pu). Qed.
Let lo := adjust_lower k l.
Let Nlo : number lo. Proof. apply adjust_number, Nl. Qed.

Lemma p_eq : p = F u - F lo.
Proof. unfold p, between. rewrite below_adjust. reflexivity. Qed.
Lemma cond_eq x : conditional k F l u x = Rmax 0 (F (xmin x u) - F lo) / p.
Proof. unfold conditional. fold p. rewrite below_adjust. reflexivity. Qed.
Let p_pos : 0 < p. Proof. exact Hp. Qed.

Lemma lo_lt_u : xlt lo u.
Proof.
  destruct (xlt_dec lo u) as [H|H]; [auto|]. apply not_xlt in H; auto.
  apply (l_mono _ _ L) in H. pose proof p_eq. lra.
Qed.
Lemma F_xmin x : number x -> F (xmin x u) <= F x /\ F (xmin x u) <= F u /\ (F (xmin x u) = F x \/ F (xmin x u) = F u).
Proof.
  intro Hx. destruct (xmin_cases x u Hx Nu) as [[H ->]|[H ->]].
  - pose proof (l_mono _ _ L x u H). repeat split; auto; lra.
  - pose proof (l_mono _ _ L u x (xlt_le _ _ H)). repeat split; auto; lra.
Qed.
Lemma div_p a b : a <= b -> a / p <= b / p.
Proof. intro H. apply Rmult_le_compat_r; auto. left. apply Rinv_0_lt_compat, p_pos. Qed.

Lemma cond_ge q x : 0 < q -> q <= 1 -> number x -> (q <= conditional k F l u x <-> F lo + q * p <= F x).
Proof.
  intros Hq Hq1 Hx. rewrite cond_eq. destruct (F_xmin x Hx) as (A & B & C).
  assert (E : q <= Rmax 0 (F (xmin x u) - F lo) / p <-> q * p <= Rmax 0 (F (xmin x u) - F lo)).
  { split; intro H.
    - apply Rmult_le_reg_r with (/ p); [apply Rinv_0_lt_compat, p_pos|]. rewrite Rmult_assoc, Rinv_r by lra. unfold Rdiv in H. lra.
    - apply Rmult_le_reg_r with p; [apply p_pos|]. unfold Rdiv. rewrite Rmult_assoc, Rinv_l by lra. lra. }
  rewrite E. assert (0 < q * p) by (apply Rmult_lt_0_compat; auto).
  assert (q * p <= p) by (rewrite <- (Rmult_1_l p) at 2; apply Rmult_le_compat_r; lra).
  pose proof p_eq. unfold Rmax. destruct (Rle_dec _ _); destruct C; lra.
Qed.

Lemma t_cdf_value x : number x -> t_cdf d l u x = Fin (conditional k F l u x).
Proof.
  intro Hx. unfold t_cdf. fold k lo. rewrite cond_eq.
  destruct (F_xmin x Hx) as (A & B & C). pose proof p_eq as Ep.
  destruct (xltb_dec x lo) as [[-> H]|[-> H]].
  - apply xlt_le, (l_mono _ _ L) in H. rewrite Rmax_left by lra. f_equal. unfold Rdiv. ring.
  - apply not_xlt in H; auto. destruct (xltb_dec u x) as [[-> H']|[-> H']].
    + destruct (xmin_cases x u Hx Nu) as [[H2 _]|[_ ->]].
      * exfalso. apply (xlt_irrefl u). eapply xlt_le_trans; eauto.
      * rewrite <- Ep, Rmax_right by lra. f_equal. field. lra.
    + apply not_xlt in H'; auto. rewrite !(l_cdf _ _ L) by auto.
      destruct (xmin_cases x u Hx Nu) as [[_ ->]|[H2 _]].
      * cbn. rewrite Reqb_false by lra. f_equal. apply (l_mono _ _ L) in H. rewrite Rmax_right by lra. rewrite Ep. reflexivity.
      * exfalso. apply (xlt_irrefl u). eapply xlt_le_trans; eauto.
Qed.

Lemma t_ppf_value q : 0 <= q <= 1 -> t_ppf d l u (Fin q) = m_ppf d (Fin (F lo + q * p)).
Proof.
  intro Hq. unfold t_ppf. fold k lo. cbn [xltb]. rewrite !Rltb_false by lra. cbn [orb].
  rewrite !(l_cdf _ _ L) by auto. rewrite p_eq. f_equal.
Qed.
Lemma t_arg q : 0 < q <= 1 -> 0 < F lo + q * p <= 1.
Proof.
  intro Hq. pose proof (F_range L lo Nlo). pose proof (F_range L u Nu). pose proof p_eq.
  assert (0 < q * p) by (apply Rmult_lt_0_compat; lra).
  assert (q * p <= p) by (rewrite <- (Rmult_1_l p) at 2; apply Rmult_le_compat_r; lra). lra.
Qed.

Lemma t_logpdf_inside x : within l u x ->
  t_logpdf d l u x = xsub (m_logpdf d x) (xlog (Fin p)).
Proof.
  intros [H1 H2]. pose proof (xle_number _ _ H1) as [_ Nx]. unfold t_logpdf. fold k lo.
  rewrite (proj2 (xltb_false x l Nx Nl) H1), (proj2 (xltb_false u x Nu Nx) H2). cbn [orb].
  rewrite !(l_cdf _ _ L) by auto. rewrite p_eq. reflexivity.
Qed.
Lemma t_logpdf_outside x : number x -> ~ within l u x -> t_logpdf d l u x = NInf.
Proof.
  intros Nx H. unfold t_logpdf. destruct (xltb_dec x l) as [[-> _]|[-> H1]]; [reflexivity|].
  destruct (xltb_dec u x) as [[-> _]|[-> H2]]; [reflexivity|]. exfalso. apply H.
  split; apply not_xlt; auto.
Qed.

Lemma whole_bound_floor x r : k = Discrete -> proper_bound k x -> (xle x (Fin r) <-> xle x (Fin (Rfloor r))).
Proof.
  intros K. rewrite K. cbn. intros [[z ->]|[-> | ->]]; [|split; discriminate|split; reflexivity].
  rewrite !xle_fin. pose proof (Rfloor_spec r). split; intro H0; [|lra].
  rewrite <- (Rfloor_IZR z). apply Rfloor_le, H0.
Qed.
Lemma xle_floor x r : k = Discrete -> proper_bound k x -> xle (Fin r) x -> xle (Fin (Rfloor r)) x.
Proof. intros K Px H. eapply xle_trans; [|exact H]. apply xle_fin. pose proof (Rfloor_spec r). lra. Qed.

Lemma truncated_lawful : lawful (truncated d l u) (conditional k F l u).
Proof.
  pose proof p_eq as Ep. pose proof (F_range L lo Nlo) as Rlo. pose proof (F_range L u Nu) as Ru.
  constructor.
  - intros x Hx. apply t_cdf_value, Hx.
  - intros x y Hxy. rewrite !cond_eq. apply div_p. destruct (xle_number _ _ Hxy) as [Nx Ny].
    assert (F (xmin x u) <= F (xmin y u)).
    { apply (l_mono _ _ L). destruct (xmin_cases x u Nx Nu) as [[A ->]|[A ->]], (xmin_cases y u Ny Nu) as [[B ->]|[B ->]]; auto.
      - apply xle_trans with x; [|auto]. apply xlt_le, A.
      - apply xle_refl; auto. }
    apply Rle_max_compat_l. lra.
  - rewrite cond_eq. destruct (F_xmin NInf number_ninf) as (A & _). rewrite (l_lo _ _ L) in A.
    rewrite Rmax_left by lra. unfold Rdiv. ring.
  - rewrite cond_eq. destruct (xmin_cases PInf u number_pinf Nu) as [[H ->]|[_ ->]].
    + assert (u = PInf) as <- by (apply xle_antisym; [apply xle_pinf; auto|auto]). rewrite <- Ep, Rmax_right by lra. field. lra.
    + rewrite <- Ep, Rmax_right by lra. field. lra.
  - intros q Hq. destruct (l_tight_lo _ _ L (F lo + q * p)) as [r Hr].
    { assert (0 < q * p) by (apply Rmult_lt_0_compat; auto). lra. }
    exists r. rewrite cond_eq. destruct (F_xmin (Fin r) (number_fin r)) as (A & _).
    apply Rmult_lt_reg_r with p; [apply p_pos|]. unfold Rdiv. rewrite Rmult_assoc, Rinv_l by lra.
    assert (0 < q * p) by (apply Rmult_lt_0_compat; auto). rewrite Rmult_1_r. apply Rmax_lub_lt; lra.
  - intros q Hq. destruct (Rle_lt_dec q 0) as [H0|H0].
    + exists 0. rewrite cond_eq. apply Rle_trans with 0; [auto|]. apply Rmult_le_pos; [apply Rmax_l|].
      left. apply Rinv_0_lt_compat, p_pos.
    + destruct (l_tight_hi _ _ L (F lo + q * p)) as [r Hr].
      { assert (q * p < 1 * p) by (apply Rmult_lt_compat_r; auto). lra. }
      exists r. apply cond_ge; auto; lra.
  - intros q Hq. cbn [m_ppf truncated]. rewrite t_ppf_value by lra. pose proof (t_arg q Hq) as T. split.
    + apply (ppf_number L); auto.
    + intros x Hx. rewrite (ppf_gal L _ x T Hx). rewrite cond_ge by lra || auto. reflexivity.
  - intros x Hx. cbn. rewrite xlog_xexp. reflexivity.
  - intro K. cbn in K. fold k in K. destruct (l_disc _ _ L K) as [Df Dp]. split.
    + intro r. rewrite !cond_eq. f_equal. f_equal. f_equal.
      destruct (xmin_cases (Fin r) u) as [[A ->]|[A ->]]; auto.
      * destruct (xmin_cases (Fin (Rfloor r)) u) as [[B ->]|[B ->]]; auto. exfalso.
        apply (xlt_irrefl u). eapply xlt_le_trans; [exact B|]. apply xle_floor; auto.
      * apply xlt_le in A. apply whole_bound_floor in A; auto.
        destruct (xmin_cases (Fin (Rfloor r)) u) as [[B ->]|[B ->]]; auto. f_equal. apply xle_antisym; auto.
    + intro z. cbn [m_pdf truncated].
      assert (Dec : forall b, proper_bound k b -> number b -> xlt b (Fin (IZR z)) -> xle b (Fin (IZR z - 1))).
      { intros b Pb Nb Hb. rewrite K in Pb. destruct Pb as [[w ->]|[-> | ->]]; [|discriminate|reflexivity].
        apply xlt_fin in Hb. apply lt_IZR in Hb. apply xle_fin. rewrite <- minus_IZR. apply IZR_le. lia. }
      destruct (xle_dec l (Fin (IZR z))) as [H1|H1]; [destruct (xle_dec (Fin (IZR z)) u) as [H2|H2]|].
      * rewrite t_logpdf_inside by (split; auto). rewrite (l_log _ _ L) by auto. rewrite Dp.
        assert (A1 : F (Fin (IZR z - 1)) <= F (Fin (IZR z))) by (apply (l_mono _ _ L), xle_fin; lra).
        rewrite xexp_log_ratio by lra || auto.
        assert (xle lo (Fin (IZR z - 1))) as H3.
        { unfold lo, adjust_lower. rewrite K. pose proof Pl as Q. fold k in Q. rewrite K in Q.
          destruct Q as [[w ->]|[-> | ->]]; [|discriminate H1|reflexivity].
          cbn. apply xle_fin. apply xle_fin in H1. lra. }
        assert (xle (Fin (IZR z - 1)) u) as H4 by (eapply xle_trans; [|exact H2]; apply xle_fin; lra).
        f_equal. rewrite !cond_eq. apply (l_mono _ _ L) in H3.
        destruct (xmin_cases (Fin (IZR z)) u) as [[_ ->]|[B _]]; auto; [|exfalso; apply (xlt_irrefl u); eapply xlt_le_trans; eauto].
        destruct (xmin_cases (Fin (IZR z - 1)) u) as [[_ ->]|[B _]]; auto; [|exfalso; apply (xlt_irrefl u); eapply xlt_le_trans; eauto].
        rewrite !Rmax_right by lra. field. lra.
      * rewrite t_logpdf_outside by (auto; intros [_ C]; auto). cbn. f_equal.
        apply not_xle in H2; auto. pose proof (Dec u Pu Nu H2) as H3. rewrite !cond_eq.
        destruct (xmin_cases (Fin (IZR z)) u) as [[B _]|[_ ->]]; auto; [exfalso; apply (xlt_irrefl u); eapply xlt_le_trans; eauto|].
        destruct (xmin_cases (Fin (IZR z - 1)) u) as [[B ->]|[_ ->]]; auto; [|ring].
        rewrite (xle_antisym _ _ B H3). ring.
      * rewrite t_logpdf_outside by (auto; intros [C _]; auto). cbn. f_equal.
        apply not_xle in H1; auto.
        assert (xle (Fin (IZR z)) lo) as H3.
        { unfold lo, adjust_lower. rewrite K. pose proof Pl as Q. fold k in Q. rewrite K in Q.
          destruct Q as [[w ->]|[-> | ->]]; [|reflexivity|discriminate H1].
          cbn. apply xle_fin. apply xlt_fin in H1. apply lt_IZR in H1. rewrite <- opp_IZR, <- plus_IZR. apply IZR_le. lia. }
        assert (xle (Fin (IZR z - 1)) lo) as H4 by (eapply xle_trans; [|exact H3]; apply xle_fin; lra).
        apply (l_mono _ _ L) in H3, H4. rewrite !cond_eq.
        destruct (F_xmin (Fin (IZR z)) (number_fin _)) as (A & _). destruct (F_xmin (Fin (IZR z - 1)) (number_fin _)) as (B & _).
        rewrite !Rmax_left by lra. ring.
  - intros K q Hq. cbn [m_ppf truncated]. rewrite t_ppf_value by lra.
    pose proof (t_arg q ltac:(lra)) as T.
    assert (q * p < 1 * p) by (apply Rmult_lt_compat_r; lra || auto).
    assert (T1 : 0 < F lo + q * p < 1) by lra.
    rewrite cond_eq. set (y := m_ppf d (Fin (F lo + q * p))).
    assert (Ny : number y) by (apply (ppf_number L); auto).
    assert (xle y u) by (apply (ppf_gal L); auto; lra).
    destruct (xmin_cases y u Ny Nu) as [[_ ->]|[B _]]; [|exfalso; apply (xlt_irrefl u); eapply xlt_le_trans; eauto].
    unfold y. rewrite (l_cont _ _ L K) by auto.
    assert (0 < q * p) by (apply Rmult_lt_0_compat; lra).
    rewrite Rmax_right by lra. field. lra.
Qed.

(** Quantiles lie in the interval. *)
Lemma t_ppf_within q : 0 < q <= 1 -> within l u (t_ppf d l u (Fin q)).
Proof.
  intro Hq. rewrite t_ppf_value by lra. pose proof (t_arg q Hq) as T. set (y := m_ppf d (Fin (F lo + q * p))).
  assert (Ny : number y) by (apply (ppf_number L); auto).
  pose proof p_eq as Ep. assert (0 < q * p) by (apply Rmult_lt_0_compat; lra || auto).
  assert (q * p <= p) by (rewrite <- (Rmult_1_l p) at 2; apply Rmult_le_compat_r; lra).
  assert (Hy : F lo < F y) by (pose proof (ppf_reaches L _ T); fold y in H1; lra).
  split; [|apply (ppf_gal L); auto; lra].
  destruct (xle_dec l y) as [|C]; [auto|exfalso]. apply not_xle in C; auto.
  assert (Cases : xle y lo \/ F y <= F lo).
  { unfold lo, adjust_lower. fold k. destruct k eqn:K; [|left; apply xlt_le; auto].
    pose proof Pl as Q. fold k in Q. rewrite K in Q.
    destruct y as [a| | |]; [|destruct Q as [[w ->]|[-> | ->]]; discriminate C| |exfalso; apply Ny; reflexivity].
    - right. destruct (l_disc _ _ L K) as [Df _]. rewrite Df. apply (l_mono _ _ L).
      destruct Q as [[w ->]|[-> | ->]]; [|reflexivity|discriminate C].
      cbn. apply xle_fin. apply xlt_fin in C. pose proof (Rfloor_spec a).
      assert (Rfloor a < IZR w) by lra. unfold Rfloor in *. apply lt_IZR in H2. rewrite <- opp_IZR, <- plus_IZR. apply IZR_le. lia.
    - left. apply xle_ninf. destruct Q as [[w ->]|[-> | ->]]; discriminate. }
  destruct Cases as [H3|H3]; [apply (l_mono _ _ L) in H3|]; lra.
Qed.
End Truncation.
