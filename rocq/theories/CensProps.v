(** C15-C16: censored distributions. *)
From Coq Require Import List Bool ZArith Reals Lra Lia.
From Verif Require Import Base XR SpecialModel LawModel LawSpec LawProofs LawProps ModModel ModSpec TruncProofs TruncProps.
Import ListNotations.
Open Scope R_scope.

Lemma np_maximum_xmax a b : number a -> number b -> np_maximum a b = xmax a b.
Proof.
  intros Na Nb. unfold np_maximum. assert (xisnan a = false /\ xisnan b = false) as [-> ->].
  { destruct a, b; try (split; reflexivity); try (exfalso; apply Na; reflexivity); exfalso; apply Nb; reflexivity. }
  cbn [orb]. destruct (xltb_dec a b) as [[-> H]|[-> H]].
  - destruct (xmax_cases a b Na Nb) as [[_ ->]|[C _]]; auto. exfalso. apply (xlt_irrefl a). eapply xlt_le_trans; [exact H|]. apply xlt_le; auto.
  - apply not_xlt in H; auto. destruct (xmax_cases a b Na Nb) as [[C ->]|[_ ->]]; auto. apply xle_antisym; auto.
Qed.
Lemma np_minimum_xmin a b : number a -> number b -> np_minimum a b = xmin a b.
Proof.
  intros Na Nb. unfold np_minimum. assert (xisnan a = false /\ xisnan b = false) as [-> ->].
  { destruct a, b; try (split; reflexivity); try (exfalso; apply Na; reflexivity); exfalso; apply Nb; reflexivity. }
  cbn [orb]. destruct (xltb_dec b a) as [[-> H]|[-> H]].
  - destruct (xmin_cases a b Na Nb) as [[C _]|[_ ->]]; auto. exfalso. apply (xlt_irrefl b). eapply xlt_le_trans; [exact H|]. auto.
  - apply not_xlt in H; auto. destruct (xmin_cases a b Na Nb) as [[_ ->]|[C _]]; auto.
    exfalso. apply (xlt_irrefl b). eapply xlt_le_trans; [exact C|]. auto.
Qed.

(** The bounds in force: the requested ones clipped to the support of the base, in order. *)
Definition bounds_in_force (d : methods) (lower upper l u : xr) : Prop :=
  number (fst (m_supp d)) /\ number (snd (m_supp d)) /\ number lower /\ number upper /\
  l = xmax (fst (m_supp d)) lower /\ u = xmin (snd (m_supp d)) upper /\ xlt l u.

Lemma force_bounds d lower upper l u : bounds_in_force d lower upper l u -> c_bounds d lower upper = (l, u).
Proof.
  intros (N1 & N2 & N3 & N4 & -> & -> & _). unfold c_bounds. rewrite np_maximum_xmax, np_minimum_xmin by auto. reflexivity.
Qed.
Lemma force_numbers d lower upper l u : bounds_in_force d lower upper l u -> number l /\ number u.
Proof. intros (N1 & N2 & N3 & N4 & -> & -> & _). split; [apply xmax_number|apply xmin_number]; auto. Qed.

Lemma xeqb_true a b : number a -> number b -> (xeqb a b = true <-> a = b).
Proof.
  intros Na Nb. destruct a as [x| | |], b as [y| | |]; cbn; try (split; congruence);
    try (exfalso; apply Na; reflexivity); try (exfalso; apply Nb; reflexivity).
  destruct (Reqb_spec x y); split; congruence.
Qed.
Lemma xeqb_neq a b : number a -> number b -> a <> b -> xeqb a b = false.
Proof. intros Na Nb H. destruct (xeqb a b) eqn:E; auto. apply xeqb_true in E; auto. contradiction. Qed.
Lemma xeqb_same a : number a -> xeqb a a = true.
Proof. intro N. apply xeqb_true; auto. Qed.

(* ------------------------------------------------------------------ C15 *)
(** The cdf is that of the clipped variable everywhere except at the upper bound. *)
Theorem C15_cdf : forall d F lower upper l u, lawful d F -> bounds_in_force d lower upper l u ->
  forall x, number x -> x <> u -> m_cdf (censored d lower upper) x = Fin (clipped F l u x).
Proof.
  intros d F lower upper l u L B x Nx Hx. destruct (force_numbers _ _ _ _ _ B) as [Nl Nu].
  unfold censored. rewrite (force_bounds _ _ _ _ _ B). cbn [m_cdf]. unfold c_cdf, clipped.
  destruct (xltb x l); [reflexivity|]. destruct (xltb_dec u x) as [[E H]|[E H]]; rewrite E.
  - apply xlt_le in H. unfold xle in H. rewrite H. reflexivity.
  - destruct (xle_dec u x) as [C|C].
    + exfalso. apply Hx. apply xle_antisym; auto. apply not_xlt; auto.
    + unfold xle in C. destruct (xleb u x); [congruence|]. apply (l_cdf _ _ L); auto.
Qed.
(** At the upper bound the code reports the base cdf, although the clipped variable has all its mass there. *)
Theorem C15_cdf_at_upper_bound_refuted :
  ~ (forall d F lower upper l u, lawful d F -> bounds_in_force d lower upper l u ->
       m_cdf (censored d lower upper) u = Fin (clipped F l u u)).
Proof.
  intro H. specialize (H unif unif_F (Fin (1 / 4)) (Fin (3 / 4)) (Fin (1 / 4)) (Fin (3 / 4)) unif_lawful).
  assert (B : bounds_in_force unif (Fin (1 / 4)) (Fin (3 / 4)) (Fin (1 / 4)) (Fin (3 / 4))).
  { unfold bounds_in_force. cbn [m_supp unif fst snd].
    refine (conj _ (conj _ (conj _ (conj _ (conj _ (conj _ _)))))); try apply number_fin.
    - unfold xmax, xleb. cbn. rewrite Rltb_true by lra. reflexivity.
    - unfold xmin, xleb. cbn. rewrite Rltb_false, Reqb_false by lra. reflexivity.
    - apply xlt_fin. lra. }
  specialize (H B). unfold censored in H. rewrite (force_bounds _ _ _ _ _ B) in H. cbn [m_cdf] in H. unfold c_cdf, clipped in H.
  cbn [xltb] in H. rewrite !Rltb_false in H by lra. unfold xleb in H. cbn in H. rewrite (Reqb_refl (3 / 4)), orb_true_r in H.
  inversion H. pose proof (clip01_cases (3 / 4)). lra.
Qed.
(** The reported cdf is still non decreasing with values in [0, 1]. *)
Theorem C15_cdf_monotone : forall d F lower upper l u, lawful d F -> bounds_in_force d lower upper l u ->
  forall x y, xle x y -> exists a b, m_cdf (censored d lower upper) x = Fin a /\ m_cdf (censored d lower upper) y = Fin b /\
    0 <= a <= b /\ b <= 1.
Proof.
  intros d F lower upper l u L B x y Hxy. destruct (force_numbers _ _ _ _ _ B) as [Nl Nu].
  destruct (xle_number _ _ Hxy) as [Nx Ny]. unfold censored. rewrite (force_bounds _ _ _ _ _ B). cbn [m_cdf]. unfold c_cdf.
  pose proof (F_range L x Nx). pose proof (F_range L y Ny). pose proof (l_mono _ _ L x y Hxy).
  rewrite !(l_cdf _ _ L) by auto.
  destruct (xltb_dec x l) as [[-> A]|[-> A]]; destruct (xltb_dec y l) as [[-> C]|[-> C]];
    try destruct (xltb_dec u x) as [[-> D]|[-> D]]; try destruct (xltb_dec u y) as [[-> E]|[-> E]];
    try (eexists; eexists; split; [reflexivity|split; [reflexivity|lra]]).
  - exfalso. apply A. eapply xle_lt_trans; eauto.
  - exfalso. apply A. eapply xle_lt_trans; eauto.
  - exfalso. apply E. eapply xlt_le_trans; eauto.
Qed.

(** Discrete: pdf(z) is the probability that the clipped variable equals z, for every integer z. *)
Theorem C15_pmf : forall d F lower upper l u, lawful d F -> kind_of d = Discrete -> bounds_in_force d lower upper l u ->
  proper_bound Discrete l -> proper_bound Discrete u ->
  forall z, m_pdf (censored d lower upper) (Fin (IZR z)) =
    Fin (clipped F l u (Fin (IZR z)) - clipped F l u (Fin (IZR z - 1))).
Proof.
  intros d F lower upper l u L K B Pl Pu z. destruct (force_numbers _ _ _ _ _ B) as [Nl Nu].
  assert (Hlu : xlt l u) by apply B.
  unfold censored. rewrite (force_bounds _ _ _ _ _ B). cbn [m_pdf]. unfold c_logpdf. rewrite K.
  destruct (l_disc _ _ L K) as [Df Dp].
  set (x := Fin (IZR z)). set (y := Fin (IZR z - 1)).
  assert (Hyx : xlt y x) by (apply xlt_fin; lra).
  assert (Hint : forall b, proper_bound Discrete b -> xlt y b -> xle x b).
  { intros b Pb. destruct Pb as [[w ->]|[-> | ->]]; [|reflexivity|discriminate].
    intro H. apply xlt_fin in H. apply xle_fin. rewrite <- minus_IZR in H. apply lt_IZR in H. apply IZR_le. lia. }
  assert (Fx := F_range L x (number_fin _)). assert (Fy := F_range L y (number_fin _)).
  assert (Fyx := l_mono _ _ L y x (xlt_le _ _ Hyx)).
  assert (LB : forall a b, xlt a b -> xleb b a = false).
  { intros a b H. destruct (xleb b a) eqn:E; auto. exfalso. apply (xlt_irrefl a). eapply xlt_le_trans; eauto. }
  destruct (xle_cases u x Nu (number_fin _)) as [Hux|Hux].
  - destruct (xle_cases x u (number_fin _) Nu) as [Hxu|Hxu].
    + (* z is the upper bound *)
      assert (E : x = u) by (apply xle_antisym; auto). rewrite (proj2 (xeqb_true x u (number_fin _) Nu) E).
      unfold clipped. rewrite <- E.
      rewrite (proj2 (xltb_false x l (number_fin _) Nl)) by (rewrite E; apply xlt_le; auto).
      rewrite (xle_refl x (number_fin _) : xleb x x = true).
      replace (xsub x (Fin 1)) with y by reflexivity. rewrite (l_cdf _ _ L) by apply number_fin.
      rewrite (LB y x Hyx).
      assert (xle l y) as Hly.
      { rewrite <- E in Hlu. destruct Pl as [[w ->]|[-> | ->]]; [|discriminate Hlu|reflexivity].
        apply xlt_fin in Hlu. apply lt_IZR in Hlu. apply xle_fin. rewrite <- minus_IZR. apply IZR_le. lia. }
      rewrite (proj2 (xltb_false y l (number_fin _) Nl) Hly).
      unfold xlog1p. cbn [xneg xadd]. rewrite xexp_xlog_fin by lra. f_equal.
    + (* above *)
      rewrite xeqb_neq; [|apply number_fin|auto|intros ->; apply (xlt_irrefl _ Hxu)].
      rewrite xeqb_neq; [|apply number_fin|auto|intros ->; apply (xlt_irrefl l); eapply xlt_le_trans; [exact Hlu|apply xlt_le; exact Hxu]].
      assert (E : xltb u x = true) by exact Hxu. rewrite E, orb_true_r. cbn [xexp].
      unfold clipped. rewrite (Hux : xleb u x = true).
      assert (Huy : xle u y).
      { destruct Pu as [[w ->]|[-> | ->]]; [|discriminate Hxu|reflexivity].
        apply xlt_fin in Hxu. apply lt_IZR in Hxu. apply xle_fin. rewrite <- minus_IZR. apply IZR_le. lia. }
      rewrite (Huy : xleb u y = true).
      rewrite (proj2 (xltb_false x l (number_fin _) Nl)) by (eapply xle_trans; [apply xlt_le; exact Hlu|exact Hux]).
      rewrite (proj2 (xltb_false y l (number_fin _) Nl)) by (eapply xle_trans; [apply xlt_le; exact Hlu|exact Huy]).
      f_equal. ring.
  - rewrite (xeqb_neq x u); [|apply number_fin|auto|intros ->; apply (xlt_irrefl _ Hux)].
    rewrite (proj2 (xltb_false u x Nu (number_fin _)) (xlt_le _ _ Hux)), orb_false_r.
    unfold clipped. rewrite (LB x u Hux), (LB y u) by (eapply xle_lt_trans; [apply xlt_le, Hyx|exact Hux]).
    destruct (xle_cases l x Nl (number_fin _)) as [Hlx|Hlx].
    + rewrite (proj2 (xltb_false x l (number_fin _) Nl) Hlx).
      destruct (xle_cases x l (number_fin _) Nl) as [Hxl'|Hxl'].
      * assert (E : x = l) by (apply xle_antisym; auto). rewrite <- E. rewrite xeqb_same by apply number_fin.
        rewrite (l_cdf _ _ L) by apply number_fin. rewrite (Hyx : xltb y x = true).
        rewrite xexp_xlog_fin by lra. f_equal. ring.
      * rewrite xeqb_neq; [|apply number_fin|auto|intros ->; apply (xlt_irrefl _ Hxl')].
        assert (Hly : xle l y).
        { destruct Pl as [[w ->]|[-> | ->]]; [|discriminate Hxl'|reflexivity].
          apply xlt_fin in Hxl'. apply lt_IZR in Hxl'. apply xle_fin. rewrite <- minus_IZR. apply IZR_le. lia. }
        rewrite (proj2 (xltb_false y l (number_fin _) Nl) Hly).
        rewrite (l_log _ _ L) by apply number_fin. unfold x at 1. rewrite Dp. apply xexp_xlog_fin. fold x y. lra.
    + rewrite (Hlx : xltb x l = true). rewrite (xeqb_neq x l); [|apply number_fin|auto|intros ->; apply (xlt_irrefl _ Hlx)].
      assert (Hyl : xlt y l) by (eapply xle_lt_trans; [apply xlt_le, Hyx|exact Hlx]). rewrite (Hyl : xltb y l = true).
      cbn [xexp]. f_equal. ring.
Qed.
(** ... so over the closed interval the probabilities add up to one. *)
Theorem C15_pmf_sums_to_one : forall d F lower upper a b, lawful d F -> kind_of d = Discrete ->
  bounds_in_force d lower upper (Fin (IZR a)) (Fin (IZR b)) ->
  exists ps, map (m_pdf (censored d lower upper)) (map (fun z => Fin (IZR z)) (arange a (b + 1))) = map Fin ps /\ rsum ps = 1.
Proof.
  intros d F lower upper a b L K B. set (G := clipped F (Fin (IZR a)) (Fin (IZR b))).
  assert (Hab : (a < b)%Z) by (apply lt_IZR, xlt_fin, B).
  exists (map (fun z => G (Fin (IZR z)) - G (Fin (IZR z - 1))) (arange a (b + 1))). split.
  - rewrite !map_map. apply map_ext. intro z. apply (C15_pmf d F lower upper); auto; left; eexists; reflexivity.
  - unfold arange. rewrite map_map.
    assert (S : forall m k, rsum (map (fun x => G (Fin (IZR (a + Z.of_nat x))) - G (Fin (IZR (a + Z.of_nat x) - 1))) (seq k m)) =
                G (Fin (IZR (a + Z.of_nat (k + m)) - 1)) - G (Fin (IZR (a + Z.of_nat k) - 1))).
    { induction m as [|m IH]; intro k; cbn [seq map rsum fold_right]; [rewrite Nat.add_0_r; lra|].
      change (fold_right Rplus 0 ?l) with (rsum l). rewrite IH.
      replace (IZR (a + Z.of_nat (S k)) - 1) with (IZR (a + Z.of_nat k)) by (rewrite Nat2Z.inj_succ, <- minus_IZR; f_equal; lia).
      replace (k + S m)%nat with (S k + m)%nat by lia. lra. }
    rewrite S. cbn [Nat.add]. replace (a + Z.of_nat (Z.to_nat (b + 1 - a)))%Z with (b + 1)%Z by lia.
    replace (a + Z.of_nat 0)%Z with a by lia. rewrite plus_IZR. replace (IZR b + 1 - 1) with (IZR b) by ring.
    unfold G, clipped. cbn [xltb]. rewrite (Rltb_true (IZR a - 1) (IZR a)) by lra.
    rewrite (Rltb_false (IZR b) (IZR a)) by (left; apply IZR_lt; auto).
    rewrite (xle_refl (Fin (IZR b)) (number_fin _) : xleb _ _ = true). ring.
Qed.
(** With equal bounds the single point does not get probability one. *)
Theorem C15_equal_bounds_refuted :
  ~ (forall d F a, lawful d F -> kind_of d = Discrete ->
       m_supp (censored d (Fin (IZR a)) (Fin (IZR a))) = (Fin (IZR a), Fin (IZR a)) ->
       m_pdf (censored d (Fin (IZR a)) (Fin (IZR a))) (Fin (IZR a)) = Fin 1).
Proof.
  intro H. specialize (H (die 6) (die_F 6) 3%Z (die_lawful 6 ltac:(lia)) eq_refl).
  assert (E : c_bounds (die 6) (Fin 3) (Fin 3) = (Fin 3, Fin 3)).
  { unfold c_bounds, np_maximum, np_minimum. cbn. rewrite !Rltb_true by lra. reflexivity. }
  unfold censored in H. rewrite E in H. specialize (H eq_refl). cbn [m_pdf kind_of die] in H. unfold c_logpdf in H.
  cbn [kind_of die] in H. rewrite (xeqb_same (Fin 3) (number_fin _)) in H.
  replace (xsub (Fin 3) (Fin 1)) with (Fin 2) in H by (cbn; f_equal; ring). cbn [m_cdf die] in H.
  assert (F2 : die_F 6 (Fin 2) = 1 / 3) by (cbn; rewrite (Rfloor_IZR 2); pose proof (clip01_cases (2 / 6)); lra).
  rewrite F2 in H. unfold xlog1p in H. cbn [xneg xadd] in H. rewrite xexp_xlog_fin in H by lra. inversion H. lra.
Qed.

Lemma lt_ne a b : xlt a b -> a <> b.
Proof. intros H ->. apply (xlt_irrefl _ H). Qed.
Lemma lt_ne' a b : xlt a b -> b <> a.
Proof. intros H ->. apply (xlt_irrefl _ H). Qed.
Ltac ne := solve [auto | apply lt_ne; auto | apply lt_ne'; auto].
Ltac ne2 a b c := solve [auto | assert (xlt a c) by (apply xlt_le_trans with b; auto using xlt_le); ne].

(** Continuous: the bounds carry the tail masses, the density is that of the base in between, nothing outside. *)
Theorem C15_density : forall d F lower upper l u, lawful d F -> kind_of d = Continuous -> bounds_in_force d lower upper l u ->
  let c := censored d lower upper in
  m_pdf c l = Fin (F l) /\ m_pdf c u = Fin (1 - F u) /\
  (forall x f, xlt l x -> xlt x u -> m_pdf d x = Fin f -> 0 <= f -> m_pdf c x = Fin f) /\
  (forall x, number x -> xlt x l \/ xlt u x -> m_pdf c x = Fin 0).
Proof.
  intros d F lower upper l u L K B c. destruct (force_numbers _ _ _ _ _ B) as [Nl Nu].
  assert (Hlu : xlt l u) by apply B.
  unfold c, censored. rewrite (force_bounds _ _ _ _ _ B). cbn [m_pdf]. unfold c_logpdf. rewrite K.
  pose proof (F_range L l Nl). pose proof (F_range L u Nu).
  refine (conj _ (conj _ (conj _ _))).
  - rewrite (xeqb_neq l u) by ne. rewrite xeqb_same by auto. rewrite (l_cdf _ _ L) by auto. apply xexp_xlog_fin. lra.
  - rewrite (xeqb_same u) by auto. rewrite (l_cdf _ _ L) by auto. unfold xlog1p. cbn [xneg xadd]. rewrite xexp_xlog_fin by lra. f_equal.
  - intros x f H1 H2 Ef Hf. destruct (xle_number _ _ (xlt_le _ _ H1)) as [_ Nx].
    rewrite (xeqb_neq x u), (xeqb_neq x l) by ne.
    rewrite (proj2 (xltb_false x l Nx Nl)), (proj2 (xltb_false u x Nu Nx)) by (apply xlt_le; auto). cbn [orb].
    rewrite (l_log _ _ L) by auto. rewrite Ef. apply xexp_xlog_fin; auto.
  - intros x Nx [H1|H1].
    + rewrite (xeqb_neq x l) by ne.
      rewrite (xeqb_neq x u) by (ne2 x l u).
      rewrite (H1 : xltb x l = true). reflexivity.
    + rewrite (xeqb_neq x u) by ne.
      rewrite (xeqb_neq x l) by (ne2 l u x).
      rewrite (H1 : xltb u x = true), orb_true_r. reflexivity.
Qed.

Lemma np_clip_value x l u : number x -> number l -> number u -> np_clip x l u = xmin (xmax x l) u.
Proof. intros. unfold np_clip. rewrite np_maximum_xmax, np_minimum_xmin; auto. apply xmax_number; auto. Qed.
Lemma clip_le x l u y : number x -> number l -> number u -> number y -> xle l u ->
  (xle (xmin (xmax x l) u) y <-> (xle x y /\ xle l y) \/ xle u y).
Proof.
  intros Nx Nl Nu Ny Hlu. destruct (xmax_cases x l Nx Nl) as [[A ->]|[A ->]].
  - destruct (xmin_cases l u Nl Nu) as [[C ->]|[C ->]].
    + split; [intro; left; split; auto; eapply xle_trans; eauto|intros [[_ H]|H]; auto; eapply xle_trans; eauto].
    + exfalso. apply (xlt_irrefl u). eapply xlt_le_trans; eauto.
  - destruct (xmin_cases x u Nx Nu) as [[C ->]|[C ->]].
    + split; [intro H; left; split; auto; eapply xle_trans; [apply xlt_le, A|auto]|intros [[H _]|H]; auto; eapply xle_trans; eauto].
    + split; [auto|]. intros [[H _]|H]; auto. eapply xle_trans; [apply xlt_le, C|auto].
Qed.
Lemma clip_within x l u : number x -> number l -> number u -> xle l u -> within l u (xmin (xmax x l) u).
Proof.
  intros Nx Nl Nu H. split.
  - destruct (xmin_cases (xmax x l) u) as [[C ->]|[C ->]]; auto using xmax_number.
    destruct (xmax_cases x l Nx Nl) as [[A ->]|[A ->]]; [apply xle_refl; auto|apply xlt_le; auto].
  - destruct (xmin_cases (xmax x l) u) as [[C ->]|[C ->]]; auto using xmax_number, xle_refl.
Qed.

(** ppf(q) is the clipped base quantile, lies between the bounds and is the generalised inverse of the distribution
    function of the clipped variable, for all kinds and all 0 < q <= 1. *)
Theorem C15_ppf : forall d F lower upper l u, lawful d F -> bounds_in_force d lower upper l u ->
  forall q, 0 < q <= 1 -> let y := m_ppf (censored d lower upper) (Fin q) in
  within l u y /\ (within l u (m_ppf d (Fin q)) -> y = m_ppf d (Fin q)) /\
  forall x, number x -> (xle y x <-> q <= clipped F l u x).
Proof.
  intros d F lower upper l u L B q Hq y. destruct (force_numbers _ _ _ _ _ B) as [Nl Nu].
  assert (Hlu : xlt l u) by apply B. pose proof (ppf_number L q Hq) as Nq.
  assert (E : y = xmin (xmax (m_ppf d (Fin q)) l) u).
  { unfold y, censored. rewrite (force_bounds _ _ _ _ _ B). cbn [m_ppf]. unfold c_ppf. apply np_clip_value; auto. }
  rewrite E. split; [apply clip_within; auto; apply xlt_le; auto|]. split.
  - intros [A1 A2]. destruct (xmax_cases (m_ppf d (Fin q)) l Nq Nl) as [[C ->]|[C ->]].
    + rewrite (xle_antisym _ _ A1 C) in *. destruct (xmin_cases (m_ppf d (Fin q)) u Nq Nu) as [[_ ->]|[D _]]; auto.
      exfalso. apply (xlt_irrefl u). eapply xlt_le_trans; eauto.
    + destruct (xmin_cases (m_ppf d (Fin q)) u Nq Nu) as [[_ ->]|[D _]]; auto.
      exfalso. apply (xlt_irrefl u). eapply xlt_le_trans; eauto.
  - intros x Nx. rewrite clip_le by (auto; apply xlt_le; auto). rewrite (ppf_gal L q x Hq Nx). unfold clipped.
    destruct (xltb_dec x l) as [[-> A]|[-> A]].
    + split; [|lra]. intros [[_ C]|C]; exfalso; apply (xlt_irrefl x); [eapply xlt_le_trans; eauto|].
      eapply xlt_le_trans; [exact A|]. eapply xle_trans; [apply xlt_le; exact Hlu|exact C].
    + apply not_xlt in A; auto. destruct (xle_dec u x) as [C|C].
      * rewrite (C : xleb u x = true). split; [lra|auto].
      * unfold xle in *. destruct (xleb u x); [congruence|]. tauto.
Qed.
(** Samples and the median are clipped too. *)
Theorem C15_rvs : forall l u draws, number l -> number u -> xle l u -> Forall number draws ->
  length (c_rvs l u draws) = length draws /\ Forall (within l u) (c_rvs l u draws).
Proof.
  intros l u draws Nl Nu H Hd. split; [apply map_length|]. unfold c_rvs. apply Forall_map.
  eapply Forall_impl; [|exact Hd]. intros x Nx. cbn beta. rewrite np_clip_value by auto. apply clip_within; auto.
Qed.
Theorem C15_median : forall d lower upper l u, bounds_in_force d lower upper l u ->
  c_median (m_ppf d (Fin (1 / 2))) l u = m_ppf (censored d lower upper) (Fin (1 / 2)).
Proof. intros d lower upper l u B. unfold censored. rewrite (force_bounds _ _ _ _ _ B). reflexivity. Qed.
Example C15_example : bounds_in_force (die 6) (Fin 2) PInf (Fin 2) (Fin 6) /\
  m_pdf (censored (die 6) (Fin 2) PInf) (Fin 2) = Fin (1 / 3).
Proof.
  assert (B : bounds_in_force (die 6) (Fin 2) PInf (Fin 2) (Fin 6)).
  { refine (conj _ (conj _ (conj _ (conj _ (conj _ (conj _ _)))))); try discriminate.
    - cbn. unfold xmax, xleb. cbn. rewrite Rltb_true by lra. reflexivity.
    - reflexivity.
    - apply xlt_fin. lra. }
  split; [exact B|].
  rewrite (C15_pmf (die 6) (die_F 6) (Fin 2) PInf (Fin 2) (Fin 6) (die_lawful 6 ltac:(lia)) eq_refl B (or_introl (ex_intro _ 2%Z eq_refl))
    (or_introl (ex_intro _ 6%Z eq_refl)) 2%Z).
  f_equal. unfold clipped. cbn [xltb]. rewrite (Rltb_true (IZR 2 - 1) 2) by lra. rewrite Rltb_false by lra.
  unfold xleb. cbn. rewrite Rltb_false, Reqb_false by lra. cbn. rewrite (Rfloor_IZR 2). pose proof (clip01_cases (2 / 6)). lra.
Qed.

(* ------------------------------------------------------------------ C16 *)
Lemma arange_split a b c : (a <= b <= c)%Z -> arange a c = arange a b ++ arange b c.
Proof.
  intro H. unfold arange. replace (Z.to_nat (c - a)) with (Z.to_nat (b - a) + Z.to_nat (c - b))%nat by lia.
  rewrite seq_app, map_app. f_equal. cbn [Nat.add].
  rewrite <- (Nat.add_0_r (Z.to_nat (b - a))) at 1. generalize 0%nat (Z.to_nat (c - b)). intros i n. revert i.
  induction n as [|n IH]; intro i; cbn; [reflexivity|]. f_equal; [lia|]. rewrite <- IH. do 2 f_equal. lia.
Qed.
Lemma rsum_app a b : rsum (a ++ b) = rsum a + rsum b.
Proof. unfold rsum. induction a; cbn; lra. Qed.
Lemma rsum_ext {A} (f g : A -> R) l : (forall x, In x l -> f x = g x) -> rsum (map f l) = rsum (map g l).
Proof. intro H. f_equal. apply map_ext_in, H. Qed.
Lemma rsum_scale {A} c (f : A -> R) l : rsum (map (fun x => c * f x) l) = c * rsum (map f l).
Proof. unfold rsum. induction l; cbn; lra. Qed.
Lemma rsum_plus {A} (f g : A -> R) l : rsum (map (fun x => f x + g x) l) = rsum (map f l) + rsum (map g l).
Proof. unfold rsum. induction l; cbn; lra. Qed.
Lemma telescope (F : xr -> R) a b : (a <= b)%Z ->
  rsum (map (fun z => F (Fin (IZR z)) - F (Fin (IZR z - 1))) (arange a b)) = F (Fin (IZR b - 1)) - F (Fin (IZR a - 1)).
Proof.
  intro H. unfold arange. rewrite map_map.
  assert (S : forall m k, rsum (map (fun x => F (Fin (IZR (a + Z.of_nat x))) - F (Fin (IZR (a + Z.of_nat x) - 1))) (seq k m)) =
              F (Fin (IZR (a + Z.of_nat (k + m)) - 1)) - F (Fin (IZR (a + Z.of_nat k) - 1))).
  { induction m as [|m IH]; intro k; cbn [seq map rsum fold_right]; [rewrite Nat.add_0_r; lra|].
    change (fold_right Rplus 0 ?l) with (rsum l). rewrite IH.
    replace (IZR (a + Z.of_nat (S k)) - 1) with (IZR (a + Z.of_nat k)) by (rewrite Nat2Z.inj_succ, <- minus_IZR; f_equal; lia).
    replace (k + S m)%nat with (S k + m)%nat by lia. lra. }
  rewrite S. cbn [Nat.add]. replace (a + Z.of_nat (Z.to_nat (b - a)))%Z with b by lia. replace (a + Z.of_nat 0)%Z with a by lia. reflexivity.
Qed.

(** The expectation of g(clip(X, a, b)) splits into the tails and the part inside the bounds. *)
Lemma expect_clip F s t a b g : values_in F s t -> (s <= a)%Z -> (a <= b)%Z -> (b <= t)%Z ->
  expect F s t (fun x => g (clipR (IZR a) (IZR b) x)) =
    g (IZR a) * F (Fin (IZR a - 1)) + expect F a b g + g (IZR b) * (1 - F (Fin (IZR b))).
Proof.
  intros [V1 V2] H1 H2 H3. unfold expect. fold (rsum). 
  rewrite (arange_split s a (t + 1)), (arange_split a (b + 1) (t + 1)) by lia. rewrite !map_app.
  change (fold_right Rplus 0 ?l) with (rsum l). rewrite !rsum_app.
  rewrite (rsum_ext _ (fun z => g (IZR a) * (F (Fin (IZR z)) - F (Fin (IZR z - 1)))) (arange s a)).
  2: { intros z Hz. apply arange_in in Hz. assert (IZR z <= IZR a) by (apply IZR_le; lia).
       assert (IZR a <= IZR b) by (apply IZR_le; lia). unfold clipR. rewrite Rmin_left, Rmax_left by lra. reflexivity. }
  rewrite (rsum_ext _ (fun z => g (IZR b) * (F (Fin (IZR z)) - F (Fin (IZR z - 1)))) (arange (b + 1) (t + 1))).
  2: { intros z Hz. apply arange_in in Hz. assert (IZR b <= IZR z) by (apply IZR_le; lia).
       assert (IZR a <= IZR b) by (apply IZR_le; lia). unfold clipR. rewrite Rmin_right, Rmax_right by lra. reflexivity. }
  rewrite (rsum_ext _ (fun z => g (IZR z) * (F (Fin (IZR z)) - F (Fin (IZR z - 1)))) (arange a (b + 1))).
  2: { intros z Hz. apply arange_in in Hz. assert (IZR a <= IZR z <= IZR b) by (split; apply IZR_le; lia).
       unfold clipR. rewrite Rmin_left, Rmax_right by lra. reflexivity. }
  rewrite !rsum_scale, !telescope by lia. rewrite V1, !plus_IZR.
  replace (IZR t + 1 - 1) with (IZR t) by ring. replace (IZR b + 1 - 1) with (IZR b) by ring. rewrite V2. ring.
Qed.

Section CensoredMoments.
Context {d : methods} {F : xr -> R} (L : lawful d F) (K : kind_of d = Discrete) (s t a b : Z).
Context (V : values_in F s t) (H1 : (s <= a)%Z) (H2 : (a <= b)%Z) (H3 : (b <= t)%Z).
Context (Hp : 0 < between Discrete F (Fin (IZR a)) (Fin (IZR b))).
Let p := between Discrete F (Fin (IZR a)) (Fin (IZR b)).
Variable tpdf : Z -> R.
Hypothesis Ht : forall z, m_pdf (truncated d (Fin (IZR a)) (Fin (IZR b))) (Fin (IZR z)) = Fin (tpdf z).

Lemma p_value : p = F (Fin (IZR b)) - F (Fin (IZR a - 1)).
Proof. reflexivity. Qed.
Lemma tpdf_value z : (a <= z <= b)%Z -> tpdf z = (F (Fin (IZR z)) - F (Fin (IZR z - 1))) / p.
Proof.
  intro Hz.
  assert (T : truncatable d F (Fin (IZR a)) (Fin (IZR b))).
  { unfold truncatable. rewrite K. split; [exact L|]. split; [left; eexists; reflexivity|]. split; [left; eexists; reflexivity|exact Hp]. }
  destruct (l_disc _ _ (C12_truncated_is_conditional _ _ _ _ T) K) as [_ Dp]. specialize (Dp z). rewrite Ht in Dp.
  injection Dp as E. rewrite E. unfold conditional. rewrite K. fold p. unfold below.
  assert (IZR a <= IZR z <= IZR b) as [A B] by (split; apply IZR_le; lia).
  assert (M1 : xmin (Fin (IZR z)) (Fin (IZR b)) = Fin (IZR z)).
  { destruct (xmin_cases (Fin (IZR z)) (Fin (IZR b))) as [[_ ->]|[C _]]; auto. apply xlt_fin in C. lra. }
  assert (M2 : xmin (Fin (IZR z - 1)) (Fin (IZR b)) = Fin (IZR z - 1)).
  { destruct (xmin_cases (Fin (IZR z - 1)) (Fin (IZR b))) as [[_ ->]|[C _]]; auto. apply xlt_fin in C. lra. }
  rewrite M1, M2. cbn [xsub xadd xneg]. change (IZR a + - (1)) with (IZR a - 1).
  assert (F (Fin (IZR a - 1)) <= F (Fin (IZR z - 1))) by (apply (l_mono _ _ L), xle_fin; lra).
  assert (F (Fin (IZR a - 1)) <= F (Fin (IZR z))) by (apply (l_mono _ _ L), xle_fin; lra).
  rewrite !Rmax_right by lra. field. fold p in Hp. lra.
Qed.
Lemma trunc_sum g : rsum (map (fun z => g (IZR z) * tpdf z) (arange a (b + 1))) * p = expect F a b g.
Proof.
  unfold expect. change (fold_right Rplus 0 ?l) with (rsum l). rewrite Rmult_comm, <- rsum_scale. apply rsum_ext.
  intros z Hz. apply arange_in in Hz. rewrite tpdf_value by lia. field. fold p in Hp. lra.
Qed.

Lemma c_mean_value m : c_mean d (Fin (IZR a)) (Fin (IZR b)) (Fin m) =
  Fin (IZR a * F (Fin (IZR a - 1)) + m * p + IZR b * (1 - F (Fin (IZR b)))).
Proof.
  unfold c_mean, c_p_low. rewrite K. rewrite !(l_cdf _ _ L) by (try apply minus1_number; auto).
  unfold xprody. cbn. f_equal. rewrite p_value. change (IZR a + - (1)) with (IZR a - 1). ring.
Qed.
Lemma c_mean_correct : c_mean d (Fin (IZR a)) (Fin (IZR b)) (Fin (grid_mean tpdf (arange a (b + 1)))) =
  Fin (expect F s t (clipR (IZR a) (IZR b))).
Proof.
  rewrite c_mean_value. f_equal. pose proof (expect_clip F s t a b (fun x => x) V H1 H2 H3) as E. cbv beta in E.
  change (fun x => clipR (IZR a) (IZR b) x) with (clipR (IZR a) (IZR b)) in E. rewrite E. unfold grid_mean.
  rewrite (trunc_sum (fun x => x)). reflexivity.
Qed.
Lemma c_var_correct (mu : R) : mu = expect F s t (clipR (IZR a) (IZR b)) ->
  c_var d (Fin (IZR a)) (Fin (IZR b)) (Fin (grid_mean tpdf (arange a (b + 1)))) (Fin (grid_var tpdf (arange a (b + 1)))) =
  Fin (expect F s t (fun x => (clipR (IZR a) (IZR b) x - mu) ^ 2)).
Proof.
  intro Emu. unfold c_var. rewrite c_mean_correct, <- Emu. set (m := grid_mean tpdf (arange a (b + 1))).
  unfold c_p_low. rewrite K. rewrite !(l_cdf _ _ L) by (try apply minus1_number; auto).
  rewrite (expect_clip F s t a b (fun x => (x - mu) ^ 2)) by auto.
  unfold xprody. cbn -[pow grid_var]. change (IZR a + - (1)) with (IZR a - 1).
  f_equal. rewrite <- (trunc_sum (fun x => (x - mu) ^ 2)).
  replace (1 + - (F (Fin (IZR a - 1)) + (1 + - F (Fin (IZR b))))) with p by (rewrite p_value; ring).
  assert (One : rsum (map tpdf (arange a (b + 1))) = 1).
  { assert (E := trunc_sum (fun _ => 1)). unfold expect in E. change (fold_right Rplus 0 ?l) with (rsum l) in E.
    rewrite (rsum_ext (fun z => 1 * (F (Fin (IZR z)) - F (Fin (IZR z - 1)))) (fun z => F (Fin (IZR z)) - F (Fin (IZR z - 1)))) in E by (intros; ring).
    rewrite telescope, plus_IZR in E by lia. replace (IZR b + 1 - 1) with (IZR b) in E by ring. rewrite <- p_value in E.
    rewrite rsum_scale, Rmult_1_l in E. apply Rmult_eq_reg_r with p; [etransitivity; [exact E|ring]|]. fold p in Hp. lra. }
  assert (V1 : rsum (map (fun z => (IZR z - mu) ^ 2 * tpdf z) (arange a (b + 1))) = grid_var tpdf (arange a (b + 1)) + (m - mu) ^ 2).
  { unfold grid_var. fold m.
    rewrite (rsum_ext _ (fun z => (IZR z - m) ^ 2 * tpdf z + ((m - mu) ^ 2 * tpdf z + (2 * (m - mu)) * ((IZR z * tpdf z) + (- m) * tpdf z)))) by (intros; ring).
    rewrite rsum_plus. f_equal. rewrite rsum_plus, !rsum_scale, rsum_plus, !rsum_scale, One.
    change (rsum (map (fun x => IZR x * tpdf x) (arange a (b + 1)))) with m. ring. }
  rewrite V1. ring.
Qed.
End CensoredMoments.

(** mean() and var() of a censored discrete distribution on {s, ..., t} are the mean and the variance of the clipped
    variable. The inner truncated distribution is evaluated on its grid of integers (at most n points). *)
Theorem C16_mean_and_variance : forall d F s t a b n tpdf, lawful d F -> kind_of d = Discrete -> values_in F s t ->
  (s <= a)%Z -> (a <= b)%Z -> (b <= t)%Z -> (b - a <= Z.of_nat n)%Z -> 0 < between Discrete F (Fin (IZR a)) (Fin (IZR b)) ->
  (forall z, m_pdf (truncated d (Fin (IZR a)) (Fin (IZR b))) (Fin (IZR z)) = Fin (tpdf z)) ->
  let grid := discrete_xvals (IZR a) (IZR b) n in
  let clip := clipR (IZR a) (IZR b) in
  let mu := expect F s t clip in
  c_mean d (Fin (IZR a)) (Fin (IZR b)) (Fin (grid_mean tpdf grid)) = Fin mu /\
  c_var d (Fin (IZR a)) (Fin (IZR b)) (Fin (grid_mean tpdf grid)) (Fin (grid_var tpdf grid)) =
    Fin (expect F s t (fun x => (clip x - mu) ^ 2)).
Proof.
  intros d F s t a b n tpdf L K V H1 H2 H3 Hn Hp Ht grid clip mu.
  assert (E : grid = arange a (b + 1)).
  { unfold grid, discrete_xvals. rewrite !int_of_IZR. replace (b - a <=? Z.of_nat n)%Z with true by (symmetry; apply Z.leb_le; lia). reflexivity. }
  rewrite E. split; [apply c_mean_correct; auto|apply c_var_correct; auto].
Qed.
(** Without bounds the moments are those of the (unbounded) truncated distribution, that is of the base. *)
Theorem C16_unbounded : forall d F m v, lawful d F ->
  c_mean d NInf PInf (Fin m) = Fin m /\ c_var d NInf PInf (Fin m) (Fin v) = Fin v.
Proof.
  intros d F m v L.
  assert (E : c_mean d NInf PInf (Fin m) = Fin m).
  { unfold c_mean, c_p_low. assert (Elo : (match kind_of d with Discrete => m_cdf d (xsub NInf (Fin 1)) | Continuous => m_cdf d NInf end) = Fin 0).
    { destruct (kind_of d); cbn [xsub xadd xneg]; rewrite (l_cdf _ _ L), (l_lo _ _ L) by auto; reflexivity. }
    rewrite Elo, (l_cdf _ _ L), (l_hi _ _ L) by auto. cbn. f_equal. ring. }
  split; [exact E|]. unfold c_var. rewrite E. unfold c_p_low.
  assert (Elo : (match kind_of d with Discrete => m_cdf d (xsub NInf (Fin 1)) | Continuous => m_cdf d NInf end) = Fin 0).
  { destruct (kind_of d); cbn [xsub xadd xneg]; rewrite (l_cdf _ _ L), (l_lo _ _ L) by auto; reflexivity. }
  rewrite Elo, (l_cdf _ _ L), (l_hi _ _ L) by auto.
  assert (I1 : xpow (xsub NInf (Fin m)) 2 = PInf).
  { cbn. unfold inf_of_sign. rewrite (Rltb_false 0 (-1 * 1)), (Rltb_true (-1 * 1) 0) by lra. cbn. rewrite Rltb_true by lra. reflexivity. }
  assert (I2 : xpow (xsub PInf (Fin m)) 2 = PInf).
  { cbn. unfold inf_of_sign. rewrite (Rltb_true 0 (1 * 1)) by lra. cbn. rewrite Rltb_true by lra. reflexivity. }
  rewrite I1, I2. cbn. f_equal. ring.
Qed.

(** The distribution function of a fair die at integers. *)
Lemma die_F_IZR n z : (0 < n)%Z -> die_F n (Fin (IZR z)) = IZR (Z.max 0 (Z.min z n)) / IZR n.
Proof.
  intro Hn. cbn [die_F]. rewrite Rfloor_IZR. assert (0 < IZR n) by (apply IZR_lt; auto).
  pose proof (clip01_cases (IZR z / IZR n)) as C.
  assert (S : forall x y, x <= y -> x / IZR n <= y / IZR n).
  { intros x y Hxy. apply Rmult_le_compat_r; auto. left. apply Rinv_0_lt_compat; auto. }
  assert (E0 : 0 / IZR n = 0) by (field; lra). assert (E1 : IZR n / IZR n = 1) by (field; lra).
  destruct (Z_le_gt_dec z 0) as [A|A]; [rewrite Z.max_l by lia; apply IZR_le in A; apply S in A; rewrite E0 in *; lra|].
  destruct (Z_le_gt_dec z n) as [B|B].
  - rewrite Z.max_r, Z.min_l by lia. apply IZR_le in B. apply S in B. assert (0 <= IZR z) as A' by (apply IZR_le; lia). apply S in A'. lra.
  - rewrite Z.max_r, Z.min_r by lia. assert (IZR n <= IZR z) as B' by (apply IZR_le; lia). apply S in B'. lra.
Qed.
Lemma die_values n : (0 < n)%Z -> values_in (die_F n) 1 n.
Proof.
  intro Hn. assert (0 < IZR n) by (apply IZR_lt; auto). split.
  - rewrite <- minus_IZR, die_F_IZR by auto. rewrite Z.max_l by lia. field. lra.
  - rewrite die_F_IZR by auto. rewrite Z.min_id, Z.max_r by lia. field. lra.
Qed.
(** A four sided die censored above 3 is truncated to three equally probable faces. *)
Lemma die4_facts : let d := die 4 in
  (forall z, m_pdf (truncated d (Fin 1) (Fin 3)) (Fin (IZR z)) = Fin (if (1 <=? z)%Z && (z <=? 3)%Z then 1 / 3 else 0)) /\
  0 < between Discrete (die_F 4) (Fin 1) (Fin 3).
Proof.
  intro d.
  assert (F0 : die_F 4 (Fin (IZR 0)) = 0) by (rewrite die_F_IZR by lia; cbn; field).
  assert (F3 : die_F 4 (Fin (IZR 3)) = 3 / 4) by (rewrite die_F_IZR by lia; cbn; field).
  assert (Hb : between Discrete (die_F 4) (Fin 1) (Fin 3) = 3 / 4).
  { unfold between, below. replace (xsub (Fin 1) (Fin 1)) with (Fin (IZR 0)) by (cbn; f_equal; ring). rewrite F0, F3. field. }
  split; [|rewrite Hb; lra]. intro z.
  assert (L4 := die_lawful 4 ltac:(lia)).
  destruct ((1 <=? z)%Z && (z <=? 3)%Z)%bool eqn:E.
  - apply andb_prop in E. rewrite !Z.leb_le in E. assert (1 <= IZR z <= 3) by (split; apply IZR_le; lia).
    cbn [m_pdf truncated]. assert (W : within (Fin 1) (Fin 3) (Fin (IZR z))) by (split; apply xle_fin; lra).
    rewrite (t_logpdf_inside L4 (Fin 1) (Fin 3)) by (auto; cbn; try (left; exists 1%Z; reflexivity); try (left; exists 3%Z; reflexivity); auto).
    cbn [kind_of die]. rewrite Hb, (l_log _ _ L4) by auto. destruct (l_disc _ _ L4 eq_refl) as [_ Dp]. rewrite Dp, <- minus_IZR, !die_F_IZR by lia.
    replace (Z.max 0 (Z.min z 4)) with z by lia. replace (Z.max 0 (Z.min (z - 1) 4)) with (z - 1)%Z by lia. rewrite minus_IZR.
    rewrite xexp_log_ratio by lra. f_equal. field.
  - apply C12_nothing_outside; auto. apply andb_false_iff in E. rewrite !Z.leb_gt in E.
    destruct E as [E|E]; [left|right]; apply xlt_fin; apply IZR_lt; lia.
Qed.
(** skewness() is not that of the clipped variable: it mixes standardised moments of different scales. Here the clipped
    variable takes 1, 2, 3, 3 with equal probability; its third central moment is negative, the code reports a positive
    skewness. *)
Theorem C16_skewness_refuted :
  ~ (forall d F s t a b tpdf sk r, lawful d F -> kind_of d = Discrete -> values_in F s t ->
      (s <= a)%Z -> (a < b)%Z -> (b <= t)%Z -> 0 < between Discrete F (Fin (IZR a)) (Fin (IZR b)) ->
      (forall z, m_pdf (truncated d (Fin (IZR a)) (Fin (IZR b))) (Fin (IZR z)) = Fin (tpdf z)) ->
      let grid := arange a (b + 1) in
      sk = rsum (map (fun z => ((IZR z - grid_mean tpdf grid) / sqrt (grid_var tpdf grid)) ^ 3 * tpdf z) grid) ->
      c_skew d (Fin (IZR a)) (Fin (IZR b)) (Fin (grid_mean tpdf grid)) (Fin (grid_var tpdf grid)) (Fin sk) = Fin r ->
      let mu := expect F s t (clipR (IZR a) (IZR b)) in
      0 < r -> 0 < expect F s t (fun x => (clipR (IZR a) (IZR b) x - mu) ^ 3)).
Proof.
  intro H. destruct die4_facts as [Ht Hb]. set (tp := fun z => if (1 <=? z)%Z && (z <=? 3)%Z then 1 / 3 else 0) in Ht.
  assert (L4 := die_lawful 4 ltac:(lia)).
  assert (Gm : grid_mean tp [1; 2; 3]%Z = 2) by (unfold grid_mean, rsum, tp; cbn; field).
  assert (Gv : grid_var tp [1; 2; 3]%Z = 2 / 3) by (unfold grid_var; rewrite Gm; unfold rsum, tp; cbn; field).
  assert (FZ : forall z, die_F 4 (Fin (IZR z)) = IZR (Z.max 0 (Z.min z 4)) / 4) by (intro; apply die_F_IZR; lia).
  assert (Ex : forall g, expect (die_F 4) 1 4 g = (g 1 + g 2 + g 3 + g 4) / 4).
  { intro g. unfold expect. change (arange 1 (4 + 1)) with [1; 2; 3; 4]%Z. cbn [map fold_right].
    rewrite <- !minus_IZR, !FZ. cbn -[Rdiv]. field. }
  assert (Cl : clipR 1 3 1 = 1 /\ clipR 1 3 2 = 2 /\ clipR 1 3 3 = 3 /\ clipR 1 3 4 = 3).
  { unfold clipR. rewrite !Rmin_left, !(Rmin_right 4) by lra. rewrite !Rmax_right by lra. auto. }
  destruct Cl as (C1 & C2 & C3 & C4).
  assert (Mu : expect (die_F 4) 1 4 (clipR 1 3) = 9 / 4) by (rewrite Ex, C1, C2, C3, C4; field).
  set (s1 := sqrt (11 / 16)). set (s2 := sqrt (2 / 3)).
  assert (S1 : s1 * s1 = 11 / 16) by (apply sqrt_sqrt; lra). assert (S2 : s2 * s2 = 2 / 3) by (apply sqrt_sqrt; lra).
  assert (P1 : 0 < s1) by (apply sqrt_lt_R0; lra). assert (P2 : 0 < s2) by (apply sqrt_lt_R0; lra).
  assert (B1 : s1 < 1) by nra. assert (B2 : 1 / 2 < s2) by nra.
  set (sk := rsum (map (fun z => ((IZR z - grid_mean tp [1; 2; 3]%Z) / sqrt (grid_var tp [1; 2; 3]%Z)) ^ 3 * tp z) [1; 2; 3]%Z)).
  assert (Esk : sk = 0).
  { unfold sk. rewrite Gm, Gv. fold s2. unfold rsum, tp. cbn. field. lra. }
  set (r := (((2 - 9 / 4) / s2) ^ 3) * (3 / 4) + ((3 - 9 / 4) / s1) ^ 3 * (1 / 4)).
  assert (Er : c_skew (die 4) (Fin 1) (Fin 3) (Fin 2) (Fin (2 / 3)) (Fin 0) = Fin r).
  { assert (Em : c_mean (die 4) (Fin 1) (Fin 3) (Fin 2) = Fin (9 / 4)).
    { rewrite <- Mu, <- Gm. apply (c_mean_correct L4 eq_refl 1 4 1 3 (die_values 4 ltac:(lia)) ltac:(lia) ltac:(lia) ltac:(lia) Hb tp Ht). }
    assert (Ev : c_var (die 4) (Fin 1) (Fin 3) (Fin 2) (Fin (2 / 3)) = Fin (11 / 16)).
    { pose proof (c_var_correct L4 eq_refl 1 4 1 3 (die_values 4 ltac:(lia)) ltac:(lia) ltac:(lia) ltac:(lia) Hb tp Ht _ eq_refl) as E.
      change (arange 1 (3 + 1)) with [1; 2; 3]%Z in E. rewrite Gm, Gv in E. rewrite E. f_equal.
      rewrite Mu, Ex, C1, C2, C3, C4. field. }
    unfold c_skew. rewrite Em, Ev. unfold c_p_low. cbn [kind_of die].
    replace (xsub (Fin 1) (Fin 1)) with (Fin (IZR 0)) by (cbn; f_equal; ring).
    rewrite !(l_cdf _ _ L4) by auto. rewrite (FZ 0%Z), (FZ 3%Z).
    unfold xhalf. rewrite !Rltb_false by lra. fold s1 s2.
    unfold xprody. cbn -[pow]. rewrite !Reqb_false by lra. cbn -[pow]. f_equal. unfold r. field. lra. }
  specialize (H (die 4) (die_F 4) 1%Z 4%Z 1%Z 3%Z tp sk r L4 eq_refl (die_values 4 ltac:(lia)) ltac:(lia) ltac:(lia) ltac:(lia) Hb Ht eq_refl).
  change (arange 1 (3 + 1)) with [1; 2; 3]%Z in H. rewrite Gm, Gv, Esk in H. specialize (H Er).
  assert (Rp : 0 < r).
  { unfold r. assert (I1 : 1 < / s1) by (rewrite <- Rinv_1; apply Rinv_lt_contravar; lra).
    assert (I2 : / s2 < 2) by (replace 2 with (/ (1 / 2)) by field; apply Rinv_lt_contravar; [apply Rmult_lt_0_compat; lra|lra]).
    assert (0 < / s2) by (apply Rinv_0_lt_compat; auto).
    replace (((2 - 9 / 4) / s2) ^ 3 * (3 / 4) + ((3 - 9 / 4) / s1) ^ 3 * (1 / 4))
      with (- (3 / 256) * (/ s2 * / s2 * / s2) + 27 / 256 * (/ s1 * / s1 * / s1)) by (field; lra).
    assert (/ s2 * / s2 * / s2 < 8).
    { assert (/ s2 * / s2 < 4) by nra. nra. }
    assert (1 < / s1 * / s1 * / s1).
    { assert (1 < / s1 * / s1) by nra. nra. }
    lra. }
  specialize (H Rp). rewrite Mu, Ex, C1, C2, C3, C4 in H. lra.
Qed.
Example C16_example :
  c_mean (die 4) (Fin 1) (Fin 3) (Fin 2) = Fin (9 / 4) /\ expect (die_F 4) 1 4 (clipR 1 3) = 9 / 4.
Proof.
  destruct die4_facts as [Ht Hb].
  assert (FZ : forall z, die_F 4 (Fin (IZR z)) = IZR (Z.max 0 (Z.min z 4)) / 4) by (intro; apply die_F_IZR; lia).
  assert (Mu : expect (die_F 4) 1 4 (clipR 1 3) = 9 / 4).
  { unfold expect. change (arange 1 (4 + 1)) with [1; 2; 3; 4]%Z. cbn [map fold_right].
    rewrite <- !minus_IZR, !FZ. unfold clipR. rewrite !Rmin_left, !(Rmin_right 4) by lra. rewrite !Rmax_right by lra. cbn -[Rdiv]. field. }
  split; [|exact Mu]. rewrite <- Mu.
  replace 2 with (grid_mean (fun z => if (1 <=? z)%Z && (z <=? 3)%Z then 1 / 3 else 0) [1; 2; 3]%Z) by (unfold grid_mean, rsum; cbn; field).
  apply (c_mean_correct (die_lawful 4 ltac:(lia)) eq_refl 1 4 1 3 (die_values 4 ltac:(lia)) ltac:(lia) ltac:(lia) ltac:(lia) Hb _ Ht).
Qed.

Print Assumptions C15_cdf.
Print Assumptions C15_pmf_sums_to_one.
Print Assumptions C15_ppf.
Print Assumptions C16_mean_and_variance.
Print Assumptions C16_skewness_refuted.
