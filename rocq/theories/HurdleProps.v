(** C17: hurdle distributions. *)
From Coq Require Import List Bool ZArith Reals Lra Lia.
From Verif Require Import Base XR SpecialModel LawModel LawSpec LawProofs LawProps ModModel ModSpec TruncProofs TruncProps CensProps.
Import ListNotations.
Open Scope R_scope.

(** The value that separates "zero" from "non zero": the code uses 2^-52; for integer valued variables that is the same
    as 0. *)
Definition zero_edge (k : kind) : R := match k with Discrete => 0 | Continuous => eps end.

Definition hurdleable (d : methods) (F : xr -> R) (psi : R) : Prop :=
  lawful d F /\ nonnegative F /\ 0 <= psi <= 1 /\ F (Fin (zero_edge (kind_of d))) < 1.

Lemma eps_range : 0 < eps < 1.
Proof. unfold eps. lra. Qed.

Section Hurdle.
Context {d : methods} {F : xr -> R} {psi : R} (H : hurdleable d F psi).
Let t := zero_edge (kind_of d).
Let Ft := F (Fin t).
Let G := hurdle_law t psi F.

Lemma H_law : lawful d F. Proof. apply H. Qed.
Lemma H_psi : 0 <= psi <= 1. Proof. apply H. Qed.
Lemma H_Ft : 0 <= Ft < 1.
Proof. destruct H as (L & _ & _ & B). split; [apply (F_range L); auto|exact B]. Qed.
Lemma F_eps : F (Fin eps) = Ft.
Proof.
  unfold Ft, t. destruct (kind_of d) eqn:K; [|reflexivity]. destruct (l_disc _ _ H_law K) as [Df _].
  rewrite Df. f_equal. f_equal. apply (Rfloor_unique _ 0). pose proof eps_range. cbn. lra.
Qed.
Lemma t_range : 0 <= t < 1.
Proof. unfold t, zero_edge. pose proof eps_range. destruct (kind_of d); lra. Qed.

Lemma G_above x : xle (Fin t) x -> G x = 1 - psi * (1 - F x) / (1 - Ft).
Proof.
  intro Hx. destruct (xle_number _ _ Hx) as [_ Nx]. pose proof t_range. pose proof H_Ft.
  assert (M : Ft <= F x) by (apply (l_mono _ _ H_law); auto).
  unfold G, hurdle_law. rewrite (proj2 (xltb_false x (Fin 0) Nx (number_fin _))) by (eapply xle_trans; [|exact Hx]; apply xle_fin; lra).
  fold t. fold Ft. rewrite Rmax_right by lra. field. lra.
Qed.
Lemma G_zero : G (Fin 0) = 1 - psi.
Proof.
  pose proof t_range. pose proof H_Ft. assert (F (Fin 0) <= Ft) by (apply (l_mono _ _ H_law), xle_fin; lra).
  unfold G, hurdle_law. cbn [xltb]. rewrite Rltb_false by lra. fold t. fold Ft. rewrite Rmax_left by lra. field. lra.
Qed.
Lemma G_neg x : xlt x (Fin 0) -> G x = 0.
Proof using H. intro Hx. unfold G, hurdle_law. rewrite (Hx : xltb x (Fin 0) = true). reflexivity. Qed.
Lemma G_nonneg x : xle (Fin 0) x -> 1 - psi <= G x <= 1.
Proof.
  intro Hx. destruct (xle_number _ _ Hx) as [_ Nx]. pose proof H_Ft. pose proof H_psi.
  unfold G, hurdle_law. rewrite (proj2 (xltb_false x (Fin 0) Nx (number_fin _)) Hx). fold t. fold Ft.
  pose proof (F_range H_law x Nx).
  assert (0 <= Rmax 0 (F x - Ft) <= 1 - Ft) by (unfold Rmax; destruct (Rle_dec 0 (F x - Ft)); lra).
  assert (0 <= Rmax 0 (F x - Ft) / (1 - Ft) <= 1).
  { split; [apply Rmult_le_pos; [lra|left; apply Rinv_0_lt_compat; lra]|].
    apply Rmult_le_reg_r with (1 - Ft); [lra|]. unfold Rdiv. rewrite Rmult_assoc, Rinv_l by lra. lra. }
  nra.
Qed.
Lemma G_mono x y : xle x y -> G x <= G y.
Proof.
  intro Hxy. destruct (xle_number _ _ Hxy) as [Nx Ny]. pose proof H_Ft. pose proof H_psi.
  destruct (xle_cases (Fin 0) x (number_fin _) Nx) as [A|A].
  - unfold G, hurdle_law. rewrite (proj2 (xltb_false x (Fin 0) Nx (number_fin _)) A).
    rewrite (proj2 (xltb_false y (Fin 0) Ny (number_fin _))) by (eapply xle_trans; eauto).
    fold t. fold Ft. apply Rplus_le_compat_l, Rmult_le_compat_l; [lra|].
    apply Rmult_le_compat_r; [left; apply Rinv_0_lt_compat; lra|].
    pose proof (l_mono _ _ H_law _ _ Hxy). apply Rle_max_compat_l. lra.
  - rewrite (G_neg x A). destruct (xle_cases (Fin 0) y (number_fin _) Ny) as [B|B]; [|rewrite (G_neg y B); lra].
    pose proof (G_nonneg y B). lra.
Qed.

(** cdf where it is right: at zero, and from the edge on. *)
Lemma h_cdf_value x : number x -> x = Fin 0 \/ xle (Fin t) x -> h_cdf d (Fin psi) x = Fin (G x).
Proof.
  intros Nx Hx. pose proof t_range. pose proof H_Ft. unfold h_cdf.
  destruct (xleb x (Fin 0)) eqn:E.
  - assert (x = Fin 0) as ->.
    { destruct Hx as [Hx|Hx]; [auto|]. apply xle_antisym; [exact E|]. eapply xle_trans; [|exact Hx]. apply xle_fin; lra. }
    rewrite G_zero. cbn. f_equal.
  - destruct Hx as [->|Hx].
    { unfold xleb in E. cbn in E. rewrite Reqb_refl, orb_true_r in E. discriminate. }
    rewrite !(l_cdf _ _ H_law) by auto. rewrite F_eps. cbn. rewrite Reqb_false by lra. rewrite (G_above x Hx). cbn. reflexivity.
Qed.
(** Discrete: the whole half line. *)
Lemma h_cdf_discrete x : kind_of d = Discrete -> xle (Fin 0) x -> h_cdf d (Fin psi) x = Fin (G x).
Proof.
  intros K Hx. apply h_cdf_value; [apply (xle_number _ _ Hx)|]. right. unfold t. rewrite K. exact Hx.
Qed.

Lemma h_pdf_discrete z : kind_of d = Discrete -> h_pdf d (Fin psi) (Fin (IZR z)) = Fin (G (Fin (IZR z)) - G (Fin (IZR z - 1))).
Proof.
  intro K. pose proof H_Ft. destruct (l_disc _ _ H_law K) as [_ Dp]. unfold h_pdf. cbn [xeqb].
  destruct (Reqb_spec (IZR z) 0) as [E|E].
  - rewrite E, G_zero, G_neg by (apply xlt_fin; lra). cbn. f_equal. lra.
  - rewrite Dp, !(l_cdf _ _ H_law) by auto. rewrite F_eps. cbn. rewrite Reqb_false by lra.
    assert (T0 : t = 0) by (unfold t; rewrite K; reflexivity).
    destruct (Z_lt_le_dec z 0) as [A|A].
    + assert (IZR z < 0) by (apply IZR_lt; auto). destruct H as (_ & N & _). rewrite (N (IZR z)), (N (IZR z - 1)) by lra.
      rewrite !G_neg by (apply xlt_fin; lra). f_equal. field. lra.
    + assert (1 <= IZR z) by (apply IZR_le; assert (z <> 0)%Z by (intro; subst; apply E; reflexivity); lia).
      rewrite !G_above by (rewrite T0; apply xle_fin; lra). f_equal. field. lra.
Qed.

Lemma h_ppf_gal q x : 0 < psi -> 0 < q <= 1 -> q <> 1 - psi -> number x ->
  number (h_ppf d (Fin psi) (Fin q)) /\ (xle (h_ppf d (Fin psi) (Fin q)) x <-> q <= G x).
Proof.
  intros Hp Hq Hne Nx. pose proof H_Ft. pose proof H_psi. pose proof t_range. unfold h_ppf.
  assert (El : m_cdf d (match kind_of d with Discrete => Fin 0 | Continuous => Fin eps end) = Fin Ft).
  { unfold Ft, t, zero_edge. destruct (kind_of d); apply (l_cdf _ _ H_law); auto. }
  rewrite El. cbn [xltb]. rewrite !Rltb_false by lra. cbn [orb].
  change (xsub (Fin 1) (Fin psi)) with (Fin (1 - psi)). 
  destruct (xleb (Fin (1 - psi)) (Fin q)) eqn:E.
  - apply xle_fin in E. assert (E' : 1 - psi < q) by lra.
    set (arg := Ft + (q - (1 - psi)) * (1 - Ft) / psi).
    assert (EA : xadd (Fin Ft) (xdiv (xmul (xsub (Fin q) (Fin (1 - psi))) (xsub (Fin 1) (Fin Ft))) (Fin psi)) = Fin arg).
    { cbn. rewrite Reqb_false by lra. cbn. reflexivity. }
    rewrite EA.
    assert (A : Ft < arg <= 1).
    { unfold arg. assert (0 < (q - (1 - psi)) * (1 - Ft) / psi).
      { apply Rdiv_lt_0_compat; [apply Rmult_lt_0_compat; lra|lra]. }
      assert ((q - (1 - psi)) * (1 - Ft) / psi <= 1 - Ft).
      { apply Rmult_le_reg_r with psi; [lra|]. unfold Rdiv. rewrite Rmult_assoc, Rinv_l by lra. nra. }
      lra. }
    split; [apply (ppf_number H_law); lra|].
    rewrite (ppf_gal H_law arg x) by (auto; lra).
    destruct (xle_cases (Fin t) x (number_fin _) Nx) as [B|B].
    + rewrite G_above by auto.
      assert (EQ : F x = Ft + (1 - psi * (1 - F x) / (1 - Ft) - (1 - psi)) * (1 - Ft) / psi) by (field; lra).
      set (g := 1 - psi * (1 - F x) / (1 - Ft)) in *. rewrite EQ. unfold arg.
      assert (M : forall u v, u <= v <-> Ft + (u - (1 - psi)) * (1 - Ft) / psi <= Ft + (v - (1 - psi)) * (1 - Ft) / psi).
      { intros u v. assert (0 < (1 - Ft) / psi) by (apply Rdiv_lt_0_compat; lra).
        replace ((u - (1 - psi)) * (1 - Ft) / psi) with ((u - (1 - psi)) * ((1 - Ft) / psi)) by (unfold Rdiv; ring).
        replace ((v - (1 - psi)) * (1 - Ft) / psi) with ((v - (1 - psi)) * ((1 - Ft) / psi)) by (unfold Rdiv; ring).
        split; intro; nra. }
      symmetry. apply M.
    + assert (F x <= Ft) by (apply (l_mono _ _ H_law), xlt_le; auto).
      split; [lra|]. intro C. exfalso.
      assert (G x <= 1 - psi); [|lra].
      destruct (xle_cases (Fin 0) x (number_fin _) Nx) as [D|D]; [|rewrite G_neg by auto; lra].
      unfold G, hurdle_law. rewrite (proj2 (xltb_false x (Fin 0) Nx (number_fin _)) D). fold t. fold Ft. rewrite Rmax_left by lra.
      unfold Rdiv. lra.
  - assert (E' : q < 1 - psi).
    { destruct (Rlt_le_dec q (1 - psi)); auto. apply xle_fin in r. unfold xle in r. congruence. }
    split; [auto|]. destruct (xle_cases (Fin 0) x (number_fin _) Nx) as [D|D].
    + split; [|auto]. intros _. pose proof (G_nonneg x D). lra.
    + split; intro C; [|rewrite G_neg in C by auto; lra]. exfalso. apply (xlt_irrefl x). eapply xlt_le_trans; eauto.
Qed.
End Hurdle.

(* ------------------------------------------------------------------ C17 *)
(** [hurdle_law (zero_edge k) psi F] is the distribution function of the variable Y that is 0 with probability 1 - psi
    and otherwise distributed as X given X > 0 (X > 2^-52 for continuous X). Its own shape: *)
Theorem C17_law_is_a_distribution : forall d F psi, hurdleable d F psi ->
  let G := hurdle_law (zero_edge (kind_of d)) psi F in
  (forall x y, xle x y -> G x <= G y) /\ G NInf = 0 /\ G (Fin 0) = 1 - psi /\ G PInf = 1 /\
  (forall q, q < 1 -> exists r, q <= G (Fin r)).
Proof.
  intros d F psi H G. pose proof H as (L & _ & Hp & Ht). split; [|split; [|split; [|split]]].
  - intros. apply (G_mono H); auto.
  - apply (G_neg H). reflexivity.
  - apply (G_zero H).
  - assert (E := G_above H PInf eq_refl). unfold G. etransitivity; [exact E|].
    rewrite (l_hi _ _ L). field. lra.
  - intros q Hq. set (t := zero_edge (kind_of d)) in *. set (Ft := F (Fin t)) in *.
    pose proof (H_Ft H) as HF. fold t Ft in HF.
    destruct (l_tight_hi _ _ L (1 - (1 - q) * (1 - Ft))) as [r Hr]; [nra|].
    exists (Rmax t r). assert (E := G_above H (Fin (Rmax t r))). fold t in E. fold Ft in E. unfold G. fold t. rewrite E by (apply xle_fin, Rmax_l).
    assert (F (Fin r) <= F (Fin (Rmax t r))) by (apply (l_mono _ _ L), xle_fin, Rmax_r).
    pose proof (F_range L (Fin (Rmax t r)) (number_fin _)).
    assert (psi * (1 - F (Fin (Rmax t r))) / (1 - Ft) <= 1 - q); [|lra].
    apply Rmult_le_reg_r with (1 - Ft); [lra|]. unfold Rdiv. rewrite Rmult_assoc, Rinv_l by lra. nra.
Qed.
(** cdf reports it on the whole non negative half line for integer valued bases ... *)
Theorem C17_cdf_discrete : forall d F psi x, hurdleable d F psi -> kind_of d = Discrete -> xle (Fin 0) x ->
  m_cdf (hurdle d (Fin psi)) x = Fin (hurdle_law 0 psi F x).
Proof. intros d F psi x H K Hx. pose proof (h_cdf_discrete H x K Hx) as E. rewrite K in E. exact E. Qed.
(** ... and at 0 and from 2^-52 on for continuous bases. *)
Theorem C17_cdf_continuous : forall d F psi x, hurdleable d F psi -> kind_of d = Continuous -> x = Fin 0 \/ xle (Fin eps) x ->
  m_cdf (hurdle d (Fin psi)) x = Fin (hurdle_law eps psi F x).
Proof.
  intros d F psi x H K Hx. pose proof (h_cdf_value H x) as E. rewrite K in E. apply E; auto.
  destruct Hx as [-> | Hx]; auto. apply (xle_number _ _ Hx).
Qed.
(** Below zero the code reports 1 - psi instead of 0. *)
Theorem C17_cdf_negative_refuted : forall d psi r, r < 0 -> m_cdf (hurdle d (Fin psi)) (Fin r) = Fin (1 - psi).
Proof.
  intros d psi r H. cbn. unfold h_cdf, xleb. cbn. rewrite Rltb_true by lra. reflexivity.
Qed.
(** Between 0 and 2^-52 the cdf of a continuous base can be smaller than at 0: not monotone. *)
Theorem C17_cdf_gap_refuted :
  ~ (forall d F psi x y, hurdleable d F psi -> kind_of d = Continuous -> 0 <= x <= y ->
       forall a b, m_cdf (hurdle d (Fin psi)) (Fin x) = Fin a -> m_cdf (hurdle d (Fin psi)) (Fin y) = Fin b -> a <= b).
Proof.
  intro C. pose proof eps_range as He. pose proof (clip01_cases eps) as Ce. pose proof (clip01_cases (eps / 2)) as Ch.
  assert (H : hurdleable unif unif_F 1).
  { split; [apply unif_lawful|]. split; [intros r Hr; cbn; pose proof (clip01_cases r); lra|]. split; [lra|]. cbn. lra. }
  assert (E1 : m_cdf (hurdle unif (Fin 1)) (Fin 0) = Fin 0).
  { cbn. unfold h_cdf, xleb. cbn. rewrite Reqb_refl, orb_true_r. cbn. f_equal. ring. }
  assert (E2 : m_cdf (hurdle unif (Fin 1)) (Fin (eps / 2)) = Fin (1 - (1 - eps / 2) / (1 - eps))).
  { cbn [m_cdf hurdle]. unfold h_cdf, xleb. cbn [xltb xeqb]. rewrite Rltb_false, Reqb_false by lra.
    cbn -[eps]. replace (clip01 (eps / 2)) with (eps / 2) by lra. replace (clip01 eps) with eps by lra.
    rewrite Reqb_false by lra. cbn -[eps]. f_equal. field. lra. }
  specialize (C _ _ 1 0 (eps / 2) H eq_refl ltac:(lra) _ _ E1 E2).
  assert (1 < (1 - eps / 2) / (1 - eps)); [|lra].
  apply Rmult_lt_reg_r with (1 - eps); [lra|]. unfold Rdiv at 1. rewrite Rmult_assoc, Rinv_l by lra. lra.
Qed.
(** pmf: probability 1 - psi at zero, the rest proportional to the base. *)
Theorem C17_pmf : forall d F psi z, hurdleable d F psi -> kind_of d = Discrete ->
  m_pdf (hurdle d (Fin psi)) (Fin 0) = Fin (1 - psi) /\
  ((0 < z)%Z -> m_pdf (hurdle d (Fin psi)) (Fin (IZR z)) =
     Fin (psi / (1 - F (Fin 0)) * (F (Fin (IZR z)) - F (Fin (IZR z - 1))))) /\
  ((z < 0)%Z -> m_pdf (hurdle d (Fin psi)) (Fin (IZR z)) = Fin 0).
Proof.
  intros d F psi z H K. pose proof (H_Ft H) as HF. rewrite K in HF. cbn [zero_edge] in HF. split; [|split].
  - cbn. unfold h_pdf. cbn. rewrite Reqb_refl. f_equal.
  - intro Hz. assert (1 <= IZR z) by (apply IZR_le; lia). cbn [m_pdf hurdle]. rewrite (h_pdf_discrete H z K), K. cbn [zero_edge].
    pose proof (G_above H (Fin (IZR z))) as E1. pose proof (G_above H (Fin (IZR z - 1))) as E2. rewrite K in E1, E2. cbn [zero_edge] in *.
    rewrite E1, E2 by (apply xle_fin; lra). f_equal. field. lra.
  - intro Hz. assert (IZR z < 0) by (apply IZR_lt; auto). cbn [m_pdf hurdle]. rewrite (h_pdf_discrete H z K), K.
    pose proof (G_neg H (Fin (IZR z))) as E1. pose proof (G_neg H (Fin (IZR z - 1))) as E2. rewrite K in *.
    rewrite E1, E2 by (apply xlt_fin; lra). f_equal. ring.
Qed.
(** The probabilities of 0, ..., n are non negative and add up to cdf(n); so to 1 on a finite support, and to more than
    any q < 1 on any support. *)
Theorem C17_pmf_sums_to_cdf : forall d F psi, hurdleable d F psi -> kind_of d = Discrete -> forall n : nat,
  exists ps, map (m_pdf (hurdle d (Fin psi))) (map (fun z => Fin (IZR z)) (arange 0 (Z.of_nat n + 1))) = map Fin ps /\
    m_cdf (hurdle d (Fin psi)) (Fin (IZR (Z.of_nat n))) = Fin (rsum ps) /\ Forall (fun p => 0 <= p) ps /\ rsum ps <= 1.
Proof.
  intros d F psi H K n. set (G := hurdle_law (zero_edge (kind_of d)) psi F).
  assert (E : rsum (map (fun z => G (Fin (IZR z)) - G (Fin (IZR z - 1))) (arange 0 (Z.of_nat n + 1))) = G (Fin (IZR (Z.of_nat n)))).
  { rewrite telescope by lia. rewrite plus_IZR. replace (IZR (Z.of_nat n) + 1 - 1) with (IZR (Z.of_nat n)) by ring.
    assert (E0 : G (Fin (0 - 1)) = 0) by (apply (G_neg H); apply xlt_fin; lra). rewrite E0. ring. }
  assert (0 <= IZR (Z.of_nat n)) by (apply IZR_le; lia).
  exists (map (fun z => G (Fin (IZR z)) - G (Fin (IZR z - 1))) (arange 0 (Z.of_nat n + 1))).
  split; [|split; [|split]].
  - rewrite !map_map. apply map_ext. intro z. apply (h_pdf_discrete H z K).
  - rewrite E. apply (h_cdf_discrete H); auto. apply xle_fin. auto.
  - apply Forall_forall. intros p Hp. apply in_map_iff in Hp. destruct Hp as (z & <- & _).
    assert (G (Fin (IZR z - 1)) <= G (Fin (IZR z))) by (apply (G_mono H), xle_fin; lra). lra.
  - rewrite E. apply (G_nonneg H). apply xle_fin. auto.
Qed.
Theorem C17_pmf_sums_to_one : forall d F psi t, hurdleable d F psi -> kind_of d = Discrete -> (0 <= t)%Z -> F (Fin (IZR t)) = 1 ->
  exists ps, map (m_pdf (hurdle d (Fin psi))) (map (fun z => Fin (IZR z)) (arange 0 (t + 1))) = map Fin ps /\ rsum ps = 1.
Proof.
  intros d F psi t H K Ht E1. destruct (C17_pmf_sums_to_cdf d F psi H K (Z.to_nat t)) as (ps & A & B & _).
  rewrite Z2Nat.id in A, B by auto. exists ps. split; [exact A|].
  rewrite (C17_cdf_discrete d F psi _ H K) in B by (apply xle_fin, IZR_le; auto). injection B as <-.
  pose proof (G_above H (Fin (IZR t))) as E. pose proof (H_Ft H) as HF. rewrite K in *. cbn [zero_edge] in *.
  rewrite E by (apply xle_fin, IZR_le; auto). rewrite E1. field. lra.
Qed.
Theorem C17_pmf_reaches_one : forall d F psi q, hurdleable d F psi -> kind_of d = Discrete -> q < 1 ->
  exists n ps, map (m_pdf (hurdle d (Fin psi))) (map (fun z => Fin (IZR z)) (arange 0 (Z.of_nat n + 1))) = map Fin ps /\ q <= rsum ps.
Proof.
  intros d F psi q H K Hq. destruct (C17_law_is_a_distribution d F psi H) as (_ & _ & _ & _ & T).
  destruct (T q Hq) as [r Hr]. set (n := Z.to_nat (up r)). exists n.
  destruct (C17_pmf_sums_to_cdf d F psi H K n) as (ps & A & B & _). exists ps. split; [exact A|].
  rewrite (C17_cdf_discrete d F psi _ H K) in B by (apply xle_fin, IZR_le; lia). injection B as <-.
  eapply Rle_trans; [exact Hr|]. rewrite K. pose proof (G_mono H (Fin r) (Fin (IZR (Z.of_nat n)))) as M. rewrite K in M. apply M.
  apply xle_fin. destruct (archimed r). apply Rle_trans with (IZR (up r)); [lra|]. apply IZR_le. unfold n. lia.
Qed.
(** Continuous: above the edge the pdf is the derivative of the cdf wherever the base pdf is that of the base cdf. *)
Theorem C17_pdf_is_derivative : forall d F psi, hurdleable d F psi -> kind_of d = Continuous ->
  forall x f, eps < x -> m_pdf d (Fin x) = Fin f -> derivable_pt_lim (fun r => F (Fin r)) x f ->
  exists g, m_pdf (hurdle d (Fin psi)) (Fin x) = Fin g /\ derivable_pt_lim (fun r => hurdle_law eps psi F (Fin r)) x g.
Proof.
  intros d F psi H K x f Hx Ef Df. pose proof (H_Ft H) as HF. pose proof (F_eps H) as Fe. rewrite K in *. cbn [zero_edge] in *.
  pose proof eps_range. set (Ft := F (Fin eps)) in *. exists (psi * f / (1 - Ft)). split.
  - cbn [m_pdf hurdle]. unfold h_pdf. cbn [xeqb]. rewrite Reqb_false by lra. rewrite Ef, (l_cdf _ _ (H_law H)) by auto. fold Ft.
    cbn. rewrite Reqb_false by lra. reflexivity.
  - assert (D : derivable_pt_lim (fun r => (1 - psi) + psi / (1 - Ft) * (F (Fin r) - Ft)) x (0 + psi / (1 - Ft) * (f - 0))).
    { apply (derivable_pt_lim_plus (fun _ => 1 - psi) (fun r => psi / (1 - Ft) * (F (Fin r) - Ft))); [apply derivable_pt_lim_const|].
      apply (derivable_pt_lim_scal (fun r => F (Fin r) - Ft)). apply (derivable_pt_lim_minus (fun r => F (Fin r)) (fun _ => Ft)); auto.
      apply derivable_pt_lim_const. }
    replace (psi * f / (1 - Ft)) with (0 + psi / (1 - Ft) * (f - 0)) by (field; lra).
    intros e He. destruct (D e He) as [del Hd]. 
    assert (P : 0 < Rmin del (x - eps)) by (apply Rmin_pos; [apply cond_pos|lra]).
    exists (mkposreal _ P). cbn. intros h Hh0 Hh. specialize (Hd h Hh0).
    assert (Hh1 : Rabs h < del) by (eapply Rlt_le_trans; [exact Hh|apply Rmin_l]).
    assert (Hh2 : Rabs h < x - eps) by (eapply Rlt_le_trans; [exact Hh|apply Rmin_r]).
    assert (V : forall r, eps <= r -> hurdle_law eps psi F (Fin r) = (1 - psi) + psi / (1 - Ft) * (F (Fin r) - Ft)).
    { intros r Hr. pose proof (G_above H (Fin r)) as E. rewrite K in E. cbn [zero_edge] in E. rewrite E by (apply xle_fin; auto). fold Ft. field. lra. }
    rewrite !V by (try lra; apply Rabs_def2 in Hh2; lra). apply Hd. auto.
Qed.
(** logpdf is the logarithm of pdf. *)
Theorem C17_logpdf : forall d F psi x f, hurdleable d F psi -> 0 < psi -> number x -> m_pdf d x = Fin f -> 0 <= f ->
  m_logpdf (hurdle d (Fin psi)) x = xlog (m_pdf (hurdle d (Fin psi)) x).
Proof.
  intros d F psi x f H Hp Nx Ef Hf. pose proof (H_Ft H) as HF. pose proof (F_eps H) as Fe. cbn [m_logpdf m_pdf hurdle].
  unfold h_logpdf, h_pdf. destruct (xeqb x (Fin 0)); [reflexivity|].
  rewrite (l_log _ _ (H_law H)) by auto. rewrite Ef, (l_cdf _ _ (H_law H)), Fe by auto.
  set (Ft := F (Fin (zero_edge (kind_of d)))) in *. cbn. rewrite (Reqb_false (1 + - Ft)) by lra.
  rewrite (Rltb_true 0 psi), (Rltb_true 0 (1 + - Ft)) by lra. cbn.
  destruct (Rltb_spec 0 f) as [Pf|Pf].
  - cbn. rewrite Rltb_true by (apply Rdiv_lt_0_compat; [apply Rmult_lt_0_compat|]; lra). f_equal.
    unfold Rdiv. rewrite !ln_mult, ln_Rinv; try lra; try apply Rinv_0_lt_compat; try apply Rmult_lt_0_compat; lra.
  - assert (f = 0) as -> by lra. rewrite Reqb_refl. cbn. rewrite Rmult_0_r. unfold Rdiv. rewrite Rmult_0_l.
    rewrite Rltb_false, Reqb_refl by lra. reflexivity.
Qed.
(** ppf is the generalised inverse of the law, for every probability except exactly 1 - psi. *)
Theorem C17_ppf_inverts : forall d F psi q x, hurdleable d F psi -> 0 < psi -> 0 < q <= 1 -> q <> 1 - psi -> number x ->
  (xle (m_ppf (hurdle d (Fin psi)) (Fin q)) x <-> q <= hurdle_law (zero_edge (kind_of d)) psi F x).
Proof. intros d F psi q x H Hp Hq Hn Nx. apply (h_ppf_gal H q x); auto. Qed.
Theorem C17_ppf_nan : forall d psi q, q < 0 \/ 1 < q -> m_ppf (hurdle d (Fin psi)) (Fin q) = NaN.
Proof.
  intros d psi q H. cbn [m_ppf hurdle]. unfold h_ppf. cbn [xltb]. destruct H.
  - rewrite (Rltb_true q 0) by auto. reflexivity.
  - rewrite (Rltb_true 1 q), orb_true_r by auto. reflexivity.
Qed.
(** rvs applies ppf to uniform draws: the draw is 0 exactly when the uniform is below 1 - psi, otherwise above zero. *)
Theorem C17_rvs : forall d F psi u, hurdleable d F psi -> 0 < psi -> 0 < u < 1 -> u <> 1 - psi ->
  (u < 1 - psi -> m_ppf (hurdle d (Fin psi)) (Fin u) = Fin 0) /\
  (1 - psi < u -> xlt (Fin (zero_edge (kind_of d))) (m_ppf (hurdle d (Fin psi)) (Fin u))).
Proof.
  intros d F psi u H Hp Hu Hn. split; intro A.
  - cbn [m_ppf hurdle]. unfold h_ppf. cbn [xltb]. rewrite !Rltb_false by lra. cbn [orb].
    unfold xleb. cbn. rewrite Rltb_false, Reqb_false by lra. reflexivity.
  - pose proof (h_ppf_gal H u (Fin (zero_edge (kind_of d))) Hp ltac:(lra) Hn (number_fin _)) as [N E].
    apply not_xle; auto. intro C. apply E in C. pose proof (G_above H (Fin (zero_edge (kind_of d))) (xle_refl _ (number_fin _))) as E2.
    rewrite E2 in C. pose proof (H_Ft H). 
    replace (1 - psi * (1 - F (Fin (zero_edge (kind_of d)))) / (1 - F (Fin (zero_edge (kind_of d))))) with (1 - psi) in C by (field; lra). lra.
Qed.
(** mean() and var() of a hurdle over {0, ..., t} are those of Y, and relate to X by
    E Y^k = psi / P(X > 0) * sum over x >= 1 of x^k P(X = x). *)
Theorem C17_mean_and_variance : forall d F psi t n hpdf, hurdleable d F psi -> kind_of d = Discrete -> (0 <= t)%Z ->
  F (Fin (IZR t)) = 1 -> (t <= Z.of_nat n)%Z ->
  (forall z, m_pdf (hurdle d (Fin psi)) (Fin (IZR z)) = Fin (hpdf z)) ->
  let G := hurdle_law 0 psi F in
  let grid := discrete_xvals 0 (IZR t) n in
  let mu := psi / (1 - F (Fin 0)) * expect F 1 t (fun x => x) in
  values_in G 0 t /\ grid_mean hpdf grid = mu /\ expect G 0 t (fun x => x) = mu /\
  grid_var hpdf grid = expect G 0 t (fun x => (x - mu) ^ 2) /\
  grid_var hpdf grid = psi / (1 - F (Fin 0)) * expect F 1 t (fun x => x ^ 2) - mu ^ 2.
Proof.
  intros d F psi t n hpdf H K Ht F1 Hn Hpdf G grid mu.
  assert (E : grid = arange 0 (t + 1)).
  { unfold grid, discrete_xvals. change 0 with (IZR 0). rewrite !int_of_IZR. replace (t - 0 <=? Z.of_nat n)%Z with true by (symmetry; apply Z.leb_le; lia). reflexivity. }
  assert (HG : forall z, hpdf z = G (Fin (IZR z)) - G (Fin (IZR z - 1))).
  { intro z. specialize (Hpdf z). cbn [m_pdf hurdle] in Hpdf. rewrite (h_pdf_discrete H z K), K in Hpdf. injection Hpdf as <-. reflexivity. }
  assert (Gt : G (Fin (IZR t)) = 1).
  { pose proof (G_above H (Fin (IZR t))) as E'. pose proof (H_Ft H) as HF. rewrite K in *. cbn [zero_edge] in *.
    unfold G. rewrite E' by (apply xle_fin, IZR_le; auto). rewrite F1. field. lra. }
  assert (Gm : G (Fin (0 - 1)) = 0) by (pose proof (G_neg H (Fin (0 - 1))) as E'; rewrite K in E'; apply E'; apply xlt_fin; lra).
  assert (Split : forall g, expect G 0 t g = g 0 * (1 - psi) + psi / (1 - F (Fin 0)) * expect F 1 t g).
  { intro g. unfold expect. change (fold_right Rplus 0 ?l) with (rsum l). rewrite (arange_split 0 1 (t + 1)) by lia.
    rewrite map_app, rsum_app. f_equal.
    - change (arange 0 1) with [0%Z]. cbn [map rsum fold_right]. rewrite Gm.
      pose proof (G_zero H) as E0. rewrite K in E0. unfold G. cbn [zero_edge] in E0. rewrite E0. ring.
    - rewrite <- rsum_scale. apply rsum_ext. intros z Hz. apply arange_in in Hz. rewrite <- HG.
      destruct (C17_pmf d F psi z H K) as (_ & A & _). rewrite Hpdf in A. injection (A ltac:(lia)) as ->. ring. }
  assert (M : expect G 0 t (fun x => x) = mu) by (rewrite Split; unfold mu; ring).
  assert (M' : grid_mean hpdf grid = mu).
  { rewrite E, <- M. unfold grid_mean, expect. change (fold_right Rplus 0 ?l) with (rsum l). apply rsum_ext. intros z _. rewrite HG. reflexivity. }
  assert (Vr : grid_var hpdf grid = expect G 0 t (fun x => (x - mu) ^ 2)).
  { unfold grid_var. rewrite M', E. unfold expect. change (fold_right Rplus 0 ?l) with (rsum l). apply rsum_ext. intros z _. rewrite HG. reflexivity. }
  refine (conj (conj Gm Gt) (conj M' (conj M (conj Vr _)))).
  rewrite Vr.
  assert (Tot : expect G 0 t (fun _ => 1) = 1).
  { unfold expect. change (fold_right Rplus 0 ?l) with (rsum l).
    rewrite (rsum_ext _ (fun z => G (Fin (IZR z)) - G (Fin (IZR z - 1)))) by (intros; ring). rewrite telescope by lia.
    rewrite plus_IZR. replace (IZR t + 1 - 1) with (IZR t) by ring. rewrite Gt, Gm. ring. }
  assert (Lin : forall f g a b, expect G 0 t (fun x => a * f x + b * g x) = a * expect G 0 t f + b * expect G 0 t g).
  { intros f g a b. unfold expect. change (fold_right Rplus 0 ?l) with (rsum l). rewrite <- !rsum_scale, <- rsum_plus. apply rsum_ext. intros; ring. }
  assert (S2 : expect G 0 t (fun x => x ^ 2) = psi / (1 - F (Fin 0)) * expect F 1 t (fun x => x ^ 2)) by (rewrite Split; ring).
  rewrite <- S2.
  assert (D : expect G 0 t (fun x => (x - mu) ^ 2) = expect G 0 t (fun x => 1 * x ^ 2 + 1 * ((- 2 * mu) * x + mu ^ 2 * 1))).
  { unfold expect. change (fold_right Rplus 0 ?l) with (rsum l). apply rsum_ext. intros; ring. }
  rewrite D. rewrite (Lin (fun x => x ^ 2) (fun x => (- 2 * mu) * x + mu ^ 2 * 1)).
  rewrite (Lin (fun x => x) (fun _ => 1)), M, Tot. ring.
Qed.
(** A hurdle without psi counts as frozen although nothing can be computed from it. *)
Theorem C17_frozen_without_psi_refuted :
  ~ (forall ps psi, h_frozen ps psi = true -> (forall p, In p ps -> p <> None) /\ psi <> None).
Proof. intro H. destruct (H [Some (Fin 1)] None eq_refl) as [_ C]. apply C. reflexivity. Qed.

Lemma die_hurdleable n psi : (1 < n)%Z -> 0 <= psi <= 1 -> hurdleable (die n) (die_F n) psi.
Proof.
  intros Hn Hp. assert (Hn' : 1 < IZR n) by (apply IZR_lt; auto). split; [apply die_lawful; lia|]. split; [|split; [auto|]].
  - intros r Hr. cbn. assert (Rfloor r / IZR n <= 0).
    { pose proof (Rfloor_spec r). assert (0 < / IZR n) by (apply Rinv_0_lt_compat; lra). unfold Rdiv. nra. }
    pose proof (clip01_cases (Rfloor r / IZR n)). lra.
  - cbn [kind_of die zero_edge]. change 0 with (IZR 0). rewrite die_F_IZR by lia.
    replace (Z.max 0 (Z.min 0 n)) with 0%Z by lia. unfold Rdiv. rewrite Rmult_0_l. lra.
Qed.
(** A die with a hurdle of 3/5: P(Y = 0) = 2/5, P(Y = 1) = 3/20, mean 3/2. *)
Example C17_example :
  hurdleable (die 4) (die_F 4) (3 / 5) /\
  m_pdf (hurdle (die 4) (Fin (3 / 5))) (Fin 0) = Fin (2 / 5) /\
  m_pdf (hurdle (die 4) (Fin (3 / 5))) (Fin (IZR 1)) = Fin (3 / 20) /\
  m_cdf (hurdle (die 4) (Fin (3 / 5))) (Fin (IZR 2)) = Fin (7 / 10).
Proof.
  assert (H : hurdleable (die 4) (die_F 4) (3 / 5)) by (apply die_hurdleable; [lia|lra]).
  destruct (C17_pmf _ _ _ 1 H eq_refl) as (A & B & _).
  split; [exact H|]. rewrite A, B by lia. change (Fin 0) with (Fin (IZR 0)). rewrite <- minus_IZR, !die_F_IZR by lia. cbn -[Rdiv].
  split; [f_equal; lra|]. split; [f_equal; field|].
  pose proof (C17_cdf_discrete _ _ _ (Fin 2) H eq_refl ltac:(apply xle_fin; lra)) as C. cbn [m_cdf hurdle] in C. rewrite C. f_equal.
  unfold hurdle_law. cbn [xltb]. rewrite Rltb_false by lra.
  rewrite (die_F_IZR 4 2), (die_F_IZR 4 0) by lia. cbn -[Rdiv]. rewrite Rmax_right by lra. field.
Qed.

Print Assumptions C17_law_is_a_distribution.
Print Assumptions C17_pmf_sums_to_one.
Print Assumptions C17_ppf_inverts.
Print Assumptions C17_mean_and_variance.
