(** C61: the statistics of truncated, censored, hurdle and mixture distributions. *)
From Coq Require Import List Bool String Reals ZArith Lra Lia.
From Verif Require Import Base RLists XR SpecialModel LawModel LawSpec LawProofs LawProps ModModel ModSpec TruncProofs TruncProps
  CensProps HurdleProps MixModel MixSpec MixProps OptModel SelProps StatModel StatSpec.
Import ListNotations.
Open Scope R_scope.

Lemma xsum_fin {A} (f : A -> R) l : xsum (map (fun x => Fin (f x)) l) = Fin (rsum (map f l)).
Proof. induction l as [|x l IH]; cbn; [reflexivity|]. unfold xsum in IH. now rewrite IH. Qed.
Lemma xpow_fin r n : xpow (Fin r) n = Fin (r ^ n).
Proof. induction n as [|n IH]; cbn; [reflexivity|]. now rewrite IH. Qed.
Lemma xdiv_fin a b : b <> 0 -> xdiv (Fin a) (Fin b) = Fin (a / b).
Proof. intro H. cbn. now rewrite Reqb_false. Qed.

Section Table.
Variables (d : methods) (G : xr -> R) (s t : Z).
Hypothesis T : tabulates d G s t.
Hypothesis N : (t - s <= 200)%Z.

Lemma full_grid : grid d "full" = Ok (map (fun z => Fin (IZR z)) (arange s (t + 1))).
Proof using T N.
  destruct T as (K & S & ST & _). unfold grid, finite_endpoints. rewrite S. cbn [String.eqb Ascii.eqb Bool.eqb orb negb bind xisfinite].
  rewrite K. unfold discrete_xvals. rewrite !int_of_IZR. replace (t - s <=? Z.of_nat 200)%Z with true by (symmetry; apply Z.leb_le; lia). reflexivity.
Qed.
Lemma full_sum g h : (forall z, (s <= z <= t)%Z -> g (Fin (IZR z)) = Fin (h (IZR z))) ->
  over_grid d "full" (fun x => xmul (g x) (m_pdf d x)) = Ok (Fin (expect G s t h)).
Proof using T N.
  intro H. destruct T as (K & _ & ST & _ & _ & P). unfold over_grid. rewrite full_grid. cbn [bind]. rewrite K, map_map. f_equal.
  rewrite (map_ext_in _ (fun z => Fin (h (IZR z) * (G (Fin (IZR z)) - G (Fin (IZR z - 1)))))).
  - apply (xsum_fin (fun z => h (IZR z) * (G (Fin (IZR z)) - G (Fin (IZR z - 1))))).
  - intros z Hz. apply arange_in in Hz. rewrite H, P by lia. reflexivity.
Qed.
Lemma pmf_nonneg z : 0 <= G (Fin (IZR z)) - G (Fin (IZR z - 1)).
Proof using T.
  destruct T as (_ & _ & _ & _ & M & _). assert (G (Fin (IZR z - 1)) <= G (Fin (IZR z))) by (apply M, xle_fin; lra). lra.
Qed.
Lemma law_var_nonneg : 0 <= law_var G s t.
Proof using T.
  unfold law_var, expect. generalize (arange s (t + 1)) as l. induction l as [|z l IH]; cbn -[pow]; [lra|].
  pose proof (pmf_nonneg z). pose proof (pow2_ge_0 (IZR z - law_mean G s t)). nra.
Qed.

(** mean(), var(), skewness() and kurtosis() of the table. *)
Lemma table_mean : grid_mean_of d = Ok (Fin (law_mean G s t)).
Proof using T N. apply full_sum. reflexivity. Qed.
Lemma table_var : grid_var_of d = Ok (Fin (law_var G s t)).
Proof using T N.
  unfold grid_var_of. rewrite table_mean. cbn [bind]. apply full_sum. intros z _. cbn [xsub xadd xneg]. rewrite xpow_fin. reflexivity.
Qed.
Lemma table_moment k : 0 < law_var G s t -> over_grid d "full" (fun x => xmul (xpow (xdiv (xsub x (Fin (law_mean G s t))) (Fin (sqrt (law_var G s t)))) k) (m_pdf d x)) =
  Ok (Fin (law_moment G s t k)).
Proof using T N.
  intro V. apply full_sum. intros z _. cbn [xsub xadd xneg]. rewrite xdiv_fin by (apply Rgt_not_eq, sqrt_lt_R0, V). now rewrite xpow_fin.
Qed.
End Table.

(** Any object with finitely many (at most 201) values that reports the probabilities of a law reports the mean, the variance,
    the skewness and the excess kurtosis of that law. *)
Theorem C61_moments : forall d G s t, tabulates d G s t -> (t - s <= 200)%Z ->
  grid_mean_of d = Ok (Fin (law_mean G s t)) /\ grid_var_of d = Ok (Fin (law_var G s t)) /\
  grid_std_of d = Ok (Fin (sqrt (law_var G s t))) /\
  (0 < law_var G s t -> t_skewness d = Ok (Fin (law_moment G s t 3)) /\ t_kurtosis d = Ok (Fin (law_moment G s t 4 - 3))).
Proof.
  intros d G s t T N. pose proof (table_mean d G s t T N) as M. pose proof (table_var d G s t T N) as V.
  assert (S : grid_std_of d = Ok (Fin (sqrt (law_var G s t)))).
  { unfold grid_std_of. rewrite V. cbn [bind xhalf]. rewrite Rltb_false by (pose proof (law_var_nonneg d G s t T); lra). reflexivity. }
  split; [exact M|]. split; [exact V|]. split; [exact S|]. intro P. split.
  - unfold t_skewness. rewrite M. cbn [bind]. rewrite S. cbn [bind]. apply (table_moment d G s t T N 3 P).
  - unfold t_kurtosis. rewrite M. cbn [bind]. rewrite S. cbn [bind]. unfold num_kurtosis.
    rewrite (table_moment d G s t T N 4 P). reflexivity.
Qed.

(** Truncation of a discrete distribution to {a, ..., b} is such an object, with the conditional law. *)
Lemma truncated_tabulates : forall d F s t a b, truncatable d F (Fin (IZR a)) (Fin (IZR b)) -> kind_of d = Discrete ->
  m_supp d = (Fin (IZR s), Fin (IZR t)) -> (s <= a)%Z -> (a <= b)%Z -> (b <= t)%Z ->
  tabulates (truncated d (Fin (IZR a)) (Fin (IZR b))) (conditional Discrete F (Fin (IZR a)) (Fin (IZR b))) a b.
Proof.
  intros d F s t a b TR K S H1 H2 H3. pose proof (C12_truncated_is_conditional _ _ _ _ TR) as LT.
  split; [exact K|]. split; [|split; [exact H2|split; [|split]]].
  - cbn [truncated m_supp]. rewrite S. unfold np_maximum, np_minimum. cbn [fst snd xisnan orb]. cbn [xltb].
    apply IZR_le in H1, H3. f_equal.
    + destruct (Rltb_spec (IZR s) (IZR a)); [reflexivity|]. f_equal. lra.
    + destruct (Rltb_spec (IZR b) (IZR t)); [reflexivity|]. f_equal. lra.
  - rewrite <- K. split.
    + destruct (C12_cdf_shape _ _ _ _ TR (Fin (IZR a - 1)) (number_fin _)) as (c & E & _ & H0 & _).
      rewrite (l_cdf _ _ LT) in E by discriminate. injection E as ->. apply H0, xlt_fin. lra.
    + destruct (C12_cdf_shape _ _ _ _ TR (Fin (IZR b)) (number_fin _)) as (c & E & _ & _ & H0 & _).
      rewrite (l_cdf _ _ LT) in E by discriminate. injection E as ->. apply H0, xle_fin. lra.
  - rewrite <- K. apply (l_mono _ _ LT).
  - rewrite <- K. apply (l_disc _ _ LT K).
Qed.
Theorem C61_truncated : forall d F s t a b, truncatable d F (Fin (IZR a)) (Fin (IZR b)) -> kind_of d = Discrete ->
  m_supp d = (Fin (IZR s), Fin (IZR t)) -> (s <= a)%Z -> (a <= b)%Z -> (b <= t)%Z -> (b - a <= 200)%Z ->
  let G := conditional Discrete F (Fin (IZR a)) (Fin (IZR b)) in
  let y := truncated d (Fin (IZR a)) (Fin (IZR b)) in
  grid_mean_of y = Ok (Fin (law_mean G a b)) /\ grid_var_of y = Ok (Fin (law_var G a b)) /\
  (0 < law_var G a b -> t_skewness y = Ok (Fin (law_moment G a b 3)) /\ t_kurtosis y = Ok (Fin (law_moment G a b 4 - 3))).
Proof.
  intros d F s t a b TR K S H1 H2 H3 N G y. destruct (C61_moments y G a b (truncated_tabulates d F s t a b TR K S H1 H2 H3) N) as (M & V & _ & R).
  split; [exact M|]. split; [exact V|exact R].
Qed.
(** A mixture of discrete distributions on {s, ..., t}: skewness and kurtosis of the mixture law. *)
Theorem C61_mixture : forall ps m s t ppf, mixable Discrete ps -> mixture_of ps m -> (s <= t)%Z -> (t - s <= 200)%Z ->
  mx_supp m = (Fin (IZR s), Fin (IZR t)) ->
  (forall p, In p ps -> values_in (p_F p) s t /\
     comp_mean (p_comp p) = Fin (expect (p_F p) s t (fun x => x)) /\
     comp_var (p_comp p) = Fin (expect (p_F p) s t (fun x => (x - expect (p_F p) s t (fun x => x)) ^ 2))) ->
  let G := mixture_law ps in
  mix_std m = Ok (Fin (sqrt (law_var G s t))) /\
  (0 < law_var G s t -> mix_skewness m ppf = Ok (Fin (law_moment G s t 3)) /\ mix_kurtosis m ppf = Ok (Fin (law_moment G s t 4 - 3))).
Proof.
  intros ps m s t ppf MX MO ST N S HP G. destruct (C18_moments_of_the_law ps m s t MX MO ST HP) as [M V].
  fold G in M, V. change (expect G s t (fun x => x)) with (law_mean G s t) in M, V. 
  change (expect G s t (fun x => (x - law_mean G s t) ^ 2)) with (law_var G s t) in V.
  destruct (C18_cdf _ _ _ MX MO) as (CD & MON & _). destruct (make_mixture_ok _ _ MX) as (m0 & M0 & KM & _).
  unfold mixture_of in MO, M0. rewrite MO in M0. injection M0 as <-.
  assert (T : tabulates (mix_methods m ppf) G s t).
  { split; [exact KM|]. split; [exact S|]. split; [exact ST|]. split; [|split].
    - assert (A : forall x c, (forall p, In p ps -> p_F p x = c) -> G x = c).
      { intros x c H. unfold G, mixture_law. rewrite <- (average_const MX c). apply average_ext. intros p Hp. now apply H. }
      split; apply A; intros p Hp; apply (proj1 (HP p Hp)).
    - exact MON.
    - intro z. cbn [m_pdf mix_methods]. pose proof (proj1 (C18_pmf ps m MX MO) z) as P. rewrite P. reflexivity. }
  assert (SD : mix_std m = Ok (Fin (sqrt (law_var G s t)))).
  { unfold mix_std. rewrite V. cbn [bind xhalf]. rewrite Rltb_false by (pose proof (law_var_nonneg _ G s t T); lra). reflexivity. }
  split; [exact SD|]. intro P. split.
  - unfold mix_skewness. rewrite M. cbn [bind]. rewrite SD. cbn [bind]. apply (table_moment _ G s t T N 3 P).
  - unfold mix_kurtosis. rewrite M. cbn [bind]. rewrite SD. cbn [bind]. unfold num_kurtosis.
    rewrite (table_moment _ G s t T N 4 P). reflexivity.
Qed.

(* ------------------------------------------------------------------ hurdles *)
(** A hurdle over a base whose support starts at 0. *)
Lemma hurdle_tabulates : forall d F psi t, hurdleable d F psi -> kind_of d = Discrete -> (0 <= t)%Z -> F (Fin (IZR t)) = 1 ->
  m_supp d = (Fin 0, Fin (IZR t)) -> tabulates (hurdle d (Fin psi)) (hurdle_law 0 psi F) 0 t.
Proof.
  intros d F psi t H K Ht F1 S. pose proof (C17_law_is_a_distribution d F psi H) as D. rewrite K in D. cbn [zero_edge] in D.
  split; [exact K|]. split; [exact S|]. split; [exact Ht|].
  assert (Hh : forall z, m_pdf (hurdle d (Fin psi)) (Fin (IZR z)) = Fin (hurdle_law 0 psi F (Fin (IZR z)) - hurdle_law 0 psi F (Fin (IZR z - 1)))).
  { intro z. pose proof (h_pdf_discrete H z K) as E. rewrite K in E. exact E. }
  split; [|split; [apply D|exact Hh]].
  destruct (C17_mean_and_variance d F psi t (Z.to_nat t) _ H K Ht F1 ltac:(lia) Hh) as (V & _). exact V.
Qed.
Theorem C61_hurdle : forall d F psi t, hurdleable d F psi -> kind_of d = Discrete -> (0 <= t <= 200)%Z -> F (Fin (IZR t)) = 1 ->
  m_supp d = (Fin 0, Fin (IZR t)) ->
  let G := hurdle_law 0 psi F in
  let y := hurdle d (Fin psi) in
  grid_mean_of y = Ok (Fin (law_mean G 0 t)) /\ grid_var_of y = Ok (Fin (law_var G 0 t)) /\
  (0 < law_var G 0 t -> t_skewness y = Ok (Fin (law_moment G 0 t 3)) /\ t_kurtosis y = Ok (Fin (law_moment G 0 t 4 - 3))).
Proof.
  intros d F psi t H K Ht F1 S G y.
  destruct (C61_moments y G 0 t (hurdle_tabulates d F psi t H K ltac:(lia) F1 S) ltac:(lia)) as (M & V & _ & R).
  split; [exact M|]. split; [exact V|exact R].
Qed.

Lemma hurdle_die_pdf n psi z : (1 < n)%Z -> 0 <= psi <= 1 -> (1 <= z <= n)%Z -> m_pdf (hurdle (die n) (Fin psi)) (Fin (IZR z)) = Fin (psi / IZR n).
Proof.
  intros Hn Hp Hz. destruct (C17_pmf _ _ _ z (die_hurdleable n psi Hn Hp) eq_refl) as (_ & E & _). rewrite E by lia.
  change (Fin 0) with (Fin (IZR 0)). rewrite <- minus_IZR, !die_F_IZR by lia.
  replace (Z.max 0 (Z.min z n)) with z by lia. replace (Z.max 0 (Z.min (z - 1) n)) with (z - 1)%Z by lia. replace (Z.max 0 (Z.min 0 n)) with 0%Z by lia.
  rewrite minus_IZR. assert (1 < IZR n) by (apply IZR_lt; lia). f_equal. field. lra.
Qed.
(** When the support of the base starts at 1 the grid misses the value 0: the variance of a hurdle die with psi = 1/2 comes out as 2.99
    instead of 4.52. *)
Theorem C61_hurdle_variance_refuted :
  ~ (forall d F psi s t, hurdleable d F psi -> kind_of d = Discrete -> (0 <= s <= t)%Z -> (t <= 200)%Z -> values_in F s t ->
      m_supp d = (Fin (IZR s), Fin (IZR t)) ->
      grid_var_of (hurdle d (Fin psi)) = Ok (Fin (law_var (hurdle_law 0 psi F) 0 t))).
Proof.
  intro H. assert (HD : hurdleable (die 6) (die_F 6) (1 / 2)) by (apply die_hurdleable; [lia|lra]).
  specialize (H (die 6) (die_F 6) (1 / 2) 1%Z 6%Z HD eq_refl ltac:(lia) ltac:(lia) (die_values 6 ltac:(lia)) eq_refl).
  assert (FG : grid (hurdle (die 6) (Fin (1 / 2))) "full" = Ok (map (fun z => Fin (IZR z)) [1; 2; 3; 4; 5; 6]%Z)).
  { unfold grid, finite_endpoints. cbn [m_supp hurdle die fst snd xisfinite negb orb String.eqb Ascii.eqb Bool.eqb bind kind_of].
    unfold discrete_xvals. change 1 with (IZR 1). rewrite !int_of_IZR. reflexivity. }
  assert (PD : forall z, (1 <= z <= 6)%Z -> m_pdf (hurdle (die 6) (Fin (1 / 2))) (Fin (IZR z)) = Fin (1 / 12)).
  { intros z Hz. rewrite hurdle_die_pdf by (lia || lra). f_equal. field. }
  assert (OG : forall g h, (forall z, (1 <= z <= 6)%Z -> g (Fin (IZR z)) = Fin (h (IZR z))) ->
    over_grid (hurdle (die 6) (Fin (1 / 2))) "full" (fun x => xmul (g x) (m_pdf (hurdle (die 6) (Fin (1 / 2))) x)) =
    Ok (Fin (h 1 * (1 / 12) + (h 2 * (1 / 12) + (h 3 * (1 / 12) + (h 4 * (1 / 12) + (h 5 * (1 / 12) + (h 6 * (1 / 12) + 0)))))))).
  { intros g h E. unfold over_grid. rewrite FG. cbn [bind kind_of hurdle die]. f_equal. cbn [map].
    rewrite !E, !PD by lia. reflexivity. }
  assert (M : grid_mean_of (hurdle (die 6) (Fin (1 / 2))) = Ok (Fin (7 / 4))).
  { unfold grid_mean_of. rewrite (OG (fun x => x) (fun x => x)) by reflexivity. do 2 f_equal. field. }
  unfold grid_var_of in H. rewrite M in H. cbn [bind] in H.
  rewrite (OG (fun x => xpow (xsub x (Fin (7 / 4))) 2) (fun x => (x + - (7 / 4)) ^ 2)) in H by (intros; cbn [xsub xadd xneg]; apply xpow_fin).
  injection H as H.
  assert (Gz : forall z, (0 <= z <= 6)%Z -> hurdle_law 0 (1 / 2) (die_F 6) (Fin (IZR z)) = 1 / 2 + IZR z / 12).
  { intros z Hz. unfold hurdle_law. cbn [xltb]. assert (0 <= IZR z) by (apply IZR_le; lia). rewrite Rltb_false by lra.
    change (Fin 0) with (Fin (IZR 0)). rewrite !die_F_IZR by lia. replace (Z.max 0 (Z.min z 6)) with z by lia. replace (Z.max 0 (Z.min 0 6)) with 0%Z by lia.
    rewrite Rmax_right by lra. field. }
  assert (Gm : hurdle_law 0 (1 / 2) (die_F 6) (Fin (-1)) = 0).
  { unfold hurdle_law. cbn [xltb]. rewrite Rltb_true by lra. reflexivity. }
  assert (EX : forall g, expect (hurdle_law 0 (1 / 2) (die_F 6)) 0 6 g = g 0 / 2 + (g 1 + g 2 + g 3 + g 4 + g 5 + g 6) / 12).
  { intro g. unfold expect. change (arange 0 (6 + 1)) with [0; 1; 2; 3; 4; 5; 6]%Z. cbn [map fold_right]. rewrite <- !minus_IZR.
    change (0 - 1)%Z with (-1)%Z. rewrite Gm, !Gz by lia. cbn -[Rdiv]. field. }
  unfold law_var, law_mean in H. rewrite !EX in H. lra.
Qed.

(* ------------------------------------------------------------------ large supports *)
(** With more than 201 values only 200 of them enter the sums: the mean of a truncated die with 1000 faces is at most 200 instead of 500.5. *)
Theorem C61_sparse_grid_refuted :
  ~ (forall d F a b, truncatable d F (Fin (IZR a)) (Fin (IZR b)) -> kind_of d = Discrete ->
      m_supp d = (Fin (IZR a), Fin (IZR b)) -> (a <= b)%Z ->
      grid_mean_of (truncated d (Fin (IZR a)) (Fin (IZR b))) = Ok (Fin (law_mean (conditional Discrete F (Fin (IZR a)) (Fin (IZR b))) a b))).
Proof.
  intro H. set (n := 1000%Z). assert (L := die_lawful n ltac:(lia)).
  destruct (die_values n ltac:(lia)) as [F0 Fn]. rewrite <- minus_IZR in F0. change (1 - 1)%Z with 0%Z in F0.
  assert (B : between Discrete (die_F n) (Fin 1) (Fin (IZR n)) = 1).
  { unfold between, below. replace (xsub (Fin 1) (Fin 1)) with (Fin (IZR 0)) by (cbn; f_equal; ring). rewrite F0, Fn. ring. }
  assert (TR : truncatable (die n) (die_F n) (Fin (IZR 1)) (Fin (IZR n))).
  { split; [exact L|]. split; [left; exists 1%Z; reflexivity|]. split; [left; exists n; reflexivity|]. cbn [kind_of die]. change (Fin (IZR 1)) with (Fin 1). rewrite B. lra. }
  specialize (H (die n) (die_F n) 1%Z n TR eq_refl eq_refl ltac:(lia)).
  set (G := conditional Discrete (die_F n) (Fin (IZR 1)) (Fin (IZR n))) in *.
  assert (Gz : forall z, (0 <= z <= n)%Z -> G (Fin (IZR z)) = IZR z / 1000).
  { intros z Hz. unfold G, conditional. change (Fin (IZR 1)) with (Fin 1). rewrite B. unfold below.
    replace (xsub (Fin 1) (Fin 1)) with (Fin (IZR 0)) by (cbn; f_equal; ring). rewrite F0.
    assert (0 <= IZR z <= IZR n) by (split; apply IZR_le; lia).
    replace (xmin (Fin (IZR z)) (Fin (IZR n))) with (Fin (IZR z)).
    2:{ assert (LE : xle (Fin (IZR z)) (Fin (IZR n))) by (apply xle_fin; lra). unfold xmin. now rewrite LE. }
    rewrite die_F_IZR by lia. replace (Z.max 0 (Z.min z n)) with z by lia. rewrite Rmax_right; [unfold n; field|].
    assert (0 <= IZR z / IZR n); [|lra]. apply Rmult_le_pos; [lra|]. left. apply Rinv_0_lt_compat. unfold n. lra. }
  pose proof (C12_truncated_is_conditional _ _ _ _ TR) as LT. cbn [kind_of die] in LT. fold G in LT.
  assert (P : forall z, (1 <= z <= n)%Z -> m_pdf (truncated (die n) (Fin (IZR 1)) (Fin (IZR n))) (Fin (IZR z)) = Fin (1 / 1000)).
  { intros z Hz. rewrite (proj2 (l_disc _ _ LT eq_refl)), <- minus_IZR, !Gz by lia. f_equal. rewrite minus_IZR. field. }
  (* true mean *)
  assert (TM : law_mean G 1 n = 1001 / 2).
  { unfold law_mean, expect.
    assert (A : forall k : nat, (Z.of_nat k <= n)%Z -> fold_right Rplus 0 (map (fun z => IZR z * (G (Fin (IZR z)) - G (Fin (IZR z - 1)))) (arange 1 (1 + Z.of_nat k))) =
      INR k * (INR k + 1) / 2000).
    { induction k as [|k IH]; intro Hk; [cbn; field|]. rewrite (arange_split 1 (1 + Z.of_nat k)) by lia. rewrite map_app, fold_right_app.
      replace (arange (1 + Z.of_nat k) (1 + Z.of_nat (S k))) with [(1 + Z.of_nat k)%Z].
      2:{ unfold arange. replace (Z.to_nat (1 + Z.of_nat (S k) - (1 + Z.of_nat k))) with 1%nat by lia. cbn [seq map]. f_equal. lia. }
      cbn [map fold_right]. rewrite <- minus_IZR, !Gz by lia. rewrite minus_IZR.
      replace (IZR (1 + Z.of_nat k)) with (INR k + 1) by (rewrite plus_IZR, <- INR_IZR_INZ; ring).
      assert (FR : forall l c, fold_right Rplus c l = fold_right Rplus 0 l + c) by (induction l as [|y l IHl]; intro c; cbn; [ring|rewrite IHl; ring]).
      rewrite FR, IH by lia. rewrite S_INR. field. }
    specialize (A 1000%nat ltac:(unfold n; lia)). change (1 + Z.of_nat 1000)%Z with (n + 1)%Z in A. rewrite A.
    replace (INR 1000) with 1000 by (rewrite INR_IZR_INZ; reflexivity). field. }
  rewrite TM in H.
  (* reported mean *)
  unfold grid_mean_of, over_grid, grid, finite_endpoints in H.
  assert (SP : m_supp (truncated (die n) (Fin (IZR 1)) (Fin (IZR n))) = (Fin (IZR 1), Fin (IZR n))).
  { cbn [truncated m_supp die fst snd]. unfold np_maximum, np_minimum. cbn [xisnan orb xltb]. rewrite !Rltb_false by lra. reflexivity. }
  rewrite SP in H. cbn [xisfinite negb orb String.eqb Ascii.eqb Bool.eqb bind kind_of truncated die] in H. injection H as H.
  unfold discrete_xvals in H. rewrite !int_of_IZR in H. change (n - 1 <=? Z.of_nat 200)%Z with false in H. cbn iota in H.
  rewrite map_map in H.
  set (zs := map Int_part (linspace (IZR 1) (IZR (n + 1)) 200)) in H.
  assert (LEN : List.length zs = 200%nat) by (unfold zs, linspace; rewrite !map_length, seq_length; reflexivity).
  assert (BND : forall z, In z zs -> (1 <= z <= n + 1)%Z).
  { intros z Hz. unfold zs in Hz. rewrite in_map_iff in Hz. destruct Hz as (x & <- & Hx).
    assert (1 <= x <= 1001).
    { unfold linspace in Hx. rewrite in_map_iff in Hx. destruct Hx as (i & <- & Hi). apply in_seq in Hi.
      assert (0 <= INR i <= 199). { split; [apply pos_INR|]. replace 199 with (INR 199) by (rewrite INR_IZR_INZ; reflexivity). apply le_INR. lia. }
      rewrite (INR_IZR_INZ 199). change (IZR (n + 1)) with 1001. change (IZR (Z.of_nat 199)) with 199. lra. }
    pose proof (base_Int_part x). split.
    - apply Z.lt_succ_r. apply lt_IZR. rewrite succ_IZR. lra.
    - apply le_IZR. change (IZR (n + 1)) with 1001. lra. }
  set (y := truncated (die n) (Fin (IZR 1)) (Fin (IZR n))) in *. change (xexp (t_logpdf (die n) (Fin (IZR 1)) (Fin (IZR n)) ?x)) with (m_pdf y x) in H.
  assert (Q : forall l, (forall z, In z l -> (1 <= z <= n + 1)%Z) -> exists r, xsum (map (fun z => xmul (Fin (IZR z)) (m_pdf y (Fin (IZR z)))) l) = Fin r /\ r <= INR (List.length l)).
  { induction l as [|z l IH]; intro Hl; [exists 0; split; [reflexivity|cbn; lra]|].
    destruct IH as (r & E & R0); [intros; apply Hl; now right|].
    assert (PZ : exists p, m_pdf y (Fin (IZR z)) = Fin p /\ IZR z * p <= 1).
    { pose proof (Hl z (or_introl eq_refl)) as Hz. destruct (Z.eq_dec z (n + 1)) as [->|Hne].
      - exists 0. split; [|lra]. unfold y. apply C12_nothing_outside; auto. right. apply xlt_fin, IZR_lt. lia.
      - exists (1 / 1000). split; [apply P; lia|]. assert (IZR z <= IZR n) by (apply IZR_le; lia). change (IZR n) with 1000 in *. lra. }
    destruct PZ as (p & EP & HP). exists (IZR z * p + r). unfold xsum in *. cbn [map fold_right]. rewrite E, EP.
    cbn [List.length]. rewrite S_INR. split; [reflexivity|lra]. }
  destruct (Q zs BND) as (r & E & R0). rewrite LEN in R0.
  replace (INR 200) with 200 in R0 by (rewrite INR_IZR_INZ; reflexivity).
  change (map (fun x => xmul (Fin (IZR x)) (xexp (t_logpdf (die n) (Fin (IZR 1)) (Fin (IZR n)) (Fin (IZR x))))) zs) with
    (map (fun z => xmul (Fin (IZR z)) (m_pdf y (Fin (IZR z)))) zs) in H.
  rewrite E in H. injection H as H. lra.
Qed.

(* ------------------------------------------------------------------ mode and median *)
(** mode() is a value of largest probability among all integers. *)
Theorem C61_mode : forall d G s t, tabulates d G s t -> (t - s <= 200)%Z -> (forall z, 0 <= G (Fin (IZR z)) <= 1) ->
  exists k, mode_of d = Ok k /\ (s <= k <= t)%Z /\
    forall z, G (Fin (IZR z)) - G (Fin (IZR z - 1)) <= G (Fin (IZR k)) - G (Fin (IZR k - 1)).
Proof.
  intros d G s t (K & S & ST & (V0 & V1) & MON & P) N HR. unfold mode_of, finite_endpoints. rewrite S.
  cbn [String.eqb Ascii.eqb Bool.eqb orb negb bind xisfinite].
  replace (discrete_xvals (IZR s) (IZR t) 200) with (arange s (t + 1)).
  2:{ unfold discrete_xvals. rewrite !int_of_IZR. replace (t - s <=? Z.of_nat 200)%Z with true by (symmetry; apply Z.leb_le; lia). reflexivity. }
  set (pmf := fun z => match m_pdf d (Fin (IZR z)) with Fin p => p | _ => 0 end).
  destruct (C30_discrete_mode pmf (arange s (t + 1))) as (l1 & k & l2 & E & EA & B & _).
  { intro Z. assert (In s (arange s (t + 1))) as I by (apply arange_in; lia). rewrite Z in I. contradiction. }
  assert (PM : forall z, pmf z = G (Fin (IZR z)) - G (Fin (IZR z - 1))) by (intro z; unfold pmf; rewrite P; reflexivity).
  assert (KI : (s <= k <= t)%Z).
  { assert (In k (arange s (t + 1))) as I by (rewrite EA; apply in_or_app; right; left; reflexivity). apply arange_in in I. lia. }
  exists k. split; [exact E|]. split; [exact KI|]. intro z. rewrite <- !PM.
  destruct (Z_lt_ge_dec z s) as [A|A]; [|destruct (Z_lt_ge_dec t z) as [C|C]].
  - assert (IZR z <= IZR s - 1) by (rewrite <- minus_IZR; apply IZR_le; lia).
    assert (G (Fin (IZR z)) <= 0) by (rewrite <- V0; apply MON, xle_fin; lra). pose proof (HR (z - 1)%Z) as H1. rewrite minus_IZR in H1.
    rewrite !PM. assert (G (Fin (IZR k - 1)) <= G (Fin (IZR k))) by (apply MON, xle_fin; lra). lra.
  - assert (IZR t <= IZR z - 1) by (rewrite <- minus_IZR; apply IZR_le; lia).
    assert (1 <= G (Fin (IZR z - 1))) by (rewrite <- V1; apply MON, xle_fin; lra). pose proof (HR z).
    rewrite !PM. assert (G (Fin (IZR k - 1)) <= G (Fin (IZR k))) by (apply MON, xle_fin; lra). lra.
  - apply B, arange_in. lia.
Qed.
(** median() of a truncated distribution splits the conditional law: at least half of it up to the median, less than half below any
    smaller value. *)
Theorem C61_median : forall d F l u, truncatable d F l u ->
  let G := conditional (kind_of d) F l u in
  let m := median_of (truncated d l u) in
  (exists r, m = Fin r) /\ 1 / 2 <= G m /\ (forall x, number x -> xlt x m -> G x < 1 / 2) /\
  (kind_of d = Continuous -> G m = 1 / 2).
Proof.
  intros d F l u TR G m. pose proof (C12_truncated_is_conditional _ _ _ _ TR) as LT. fold G in LT.
  split; [apply (ppf_finite LT); lra|]. split; [apply (ppf_reaches LT); lra|]. split.
  - intros x Nx Hx. apply (ppf_below LT); auto. lra.
  - intro K. apply (l_cont _ _ LT K). lra.
Qed.

(* ------------------------------------------------------------------ entropy *)
Lemma ppf_is d G q z : lawful d G -> kind_of d = Discrete -> 0 < q < 1 -> G (Fin (IZR z - 1)) < q -> q <= G (Fin (IZR z)) -> m_ppf d (Fin q) = Fin (IZR z).
Proof.
  intros L K Q H1 H2. destruct (ppf_whole L q K Q) as [w E]. rewrite E. do 2 f_equal.
  assert (A : xle (Fin (IZR w)) (Fin (IZR z))) by (rewrite <- E; apply (ppf_gal L q (Fin (IZR z))); [lra|discriminate|exact H2]).
  apply xle_fin, le_IZR in A. destruct (Z_lt_ge_dec w z) as [B|B]; [|lia]. exfalso.
  pose proof (ppf_reaches L q ltac:(lra)) as R0. rewrite E in R0.
  assert (G (Fin (IZR w)) <= G (Fin (IZR z - 1))) by (apply (l_mono _ _ L), xle_fin; rewrite <- minus_IZR; apply IZR_le; lia). lra.
Qed.
Lemma ok_inj {A} (a b : A) : Ok a = Ok b -> a = b.
Proof. congruence. Qed.
Lemma fin_inj a b : Fin a = Fin b -> a = b.
Proof. congruence. Qed.
Lemma zero_ninf : xmul (Fin 0) NInf = NaN.
Proof. cbn. unfold inf_of_sign. now rewrite !Rltb_false by lra. Qed.
Lemma plogp_log p : 0 <= p -> (let w := xmul (xexp (xlog (Fin p))) (xlog (Fin p)) in if xisfinite w then w else Fin 0) = Fin (plogp p).
Proof.
  intro H. unfold plogp. cbn [xlog]. destruct (Rltb_spec 0 p) as [A|A].
  - rewrite (Reqb_false p 0) by lra. cbn. now rewrite exp_ln.
  - assert (p = 0) as -> by lra. rewrite Reqb_refl. cbn [xexp]. rewrite zero_ninf. reflexivity.
Qed.
Lemma plogp_pos p : 0 < p -> xmul (xexp (xlog (Fin p))) (xlog (Fin p)) = Fin (plogp p).
Proof.
  intro H. pose proof (plogp_log p ltac:(lra)) as E. cbn [xlog] in *. rewrite Rltb_true in * by lra. cbn in *. exact E.
Qed.
Lemma restricted_grid d G s t : lawful d G -> kind_of d = Discrete -> (t - s <= 200)%Z ->
  G (Fin (IZR s - 1)) < 1 / 10000 -> 1 / 10000 <= G (Fin (IZR s)) -> G (Fin (IZR t - 1)) < 9999 / 10000 -> 9999 / 10000 <= G (Fin (IZR t)) ->
  grid d "restricted" = Ok (map (fun z => Fin (IZR z)) (arange s (t + 1))).
Proof.
  intros L K N A B C D. unfold grid, finite_endpoints. destruct (m_supp d) as [lo up].
  cbn [String.eqb Ascii.eqb Bool.eqb orb negb bind]. rewrite !orb_true_r.
  rewrite (ppf_is d G (1 / 10000) s), (ppf_is d G (9999 / 10000) t) by (auto; lra). rewrite K.
  unfold discrete_xvals. rewrite !int_of_IZR. replace (t - s <=? Z.of_nat 200)%Z with true by (symmetry; apply Z.leb_le; lia). reflexivity.
Qed.
(** entropy() of a mixture, and of a truncated or hurdle distribution that gives positive probability to each integer in its
    range, is the Shannon entropy of the law over the values between the quantiles 0.0001 and 0.9999. *)
Theorem C61_entropy : forall d G s t, lawful d G -> kind_of d = Discrete -> (t - s <= 200)%Z ->
  G (Fin (IZR s - 1)) < 1 / 10000 -> 1 / 10000 <= G (Fin (IZR s)) -> G (Fin (IZR t - 1)) < 9999 / 10000 -> 9999 / 10000 <= G (Fin (IZR t)) ->
  mix_entropy d = Ok (Fin (law_entropy G s t)) /\
  ((forall z, (s <= z <= t)%Z -> G (Fin (IZR z - 1)) < G (Fin (IZR z))) -> grid_entropy d = Ok (Fin (law_entropy G s t))).
Proof.
  intros d G s t L K N A B C D. pose proof (restricted_grid d G s t L K N A B C D) as GR.
  assert (LP : forall z, m_logpdf d (Fin (IZR z)) = xlog (Fin (G (Fin (IZR z)) - G (Fin (IZR z - 1))))).
  { intro z. rewrite (l_log _ _ L) by discriminate. now rewrite (proj2 (l_disc _ _ L K)). }
  split; [|intro POS]; unfold mix_entropy, grid_entropy, over_grid; rewrite GR; cbn [bind]; rewrite K, map_map.
  - rewrite (map_ext_in _ (fun z => Fin (plogp (G (Fin (IZR z)) - G (Fin (IZR z - 1)))))).
    + rewrite (xsum_fin (fun z => plogp (G (Fin (IZR z)) - G (Fin (IZR z - 1))))). reflexivity.
    + intros z _. rewrite LP. apply plogp_log. assert (G (Fin (IZR z - 1)) <= G (Fin (IZR z))) by (apply (l_mono _ _ L), xle_fin; lra). lra.
  - rewrite (map_ext_in _ (fun z => Fin (plogp (G (Fin (IZR z)) - G (Fin (IZR z - 1)))))).
    + rewrite (xsum_fin (fun z => plogp (G (Fin (IZR z)) - G (Fin (IZR z - 1))))). reflexivity.
    + intros z Hz. apply arange_in in Hz. rewrite LP. apply plogp_pos. specialize (POS z ltac:(lia)). lra.
Qed.

(** A hurdle over a base that starts at 2: the value 1 has probability zero and 0 * log 0 makes the entropy NaN. *)
Theorem C61_entropy_nan_refuted :
  ~ (forall d F psi, hurdleable d F psi -> kind_of d = Discrete -> exists r, grid_entropy (hurdle d (Fin psi)) = Ok (Fin r)).
Proof.
  intro H. set (d := truncated (die 3) (Fin (IZR 2)) (Fin (IZR 3))). set (F := conditional Discrete (die_F 3) (Fin (IZR 2)) (Fin (IZR 3))).
  assert (F1 : die_F 3 (Fin (IZR 1)) = 1 / 3) by (rewrite die_F_IZR by lia; cbn; field).
  assert (F2 : die_F 3 (Fin (IZR 2)) = 2 / 3) by (rewrite die_F_IZR by lia; cbn; field).
  assert (F3 : die_F 3 (Fin (IZR 3)) = 1) by (rewrite die_F_IZR by lia; cbn; field).
  assert (BT : between Discrete (die_F 3) (Fin (IZR 2)) (Fin (IZR 3)) = 2 / 3).
  { unfold between, below. replace (xsub (Fin (IZR 2)) (Fin 1)) with (Fin (IZR 1)) by (cbn; f_equal; ring). rewrite F1, F3. field. }
  assert (TR : truncatable (die 3) (die_F 3) (Fin (IZR 2)) (Fin (IZR 3))).
  { split; [apply die_lawful; lia|]. split; [left; exists 2%Z; reflexivity|]. split; [left; exists 3%Z; reflexivity|]. cbn [kind_of die]. rewrite BT. lra. }
  pose proof (C12_truncated_is_conditional _ _ _ _ TR) as LT. cbn [kind_of die] in LT. fold F d in LT.
  assert (Z0 : forall r, r < 2 -> F (Fin r) = 0).
  { intros r Hr. destruct (C12_cdf_shape _ _ _ _ TR (Fin r) (number_fin _)) as (c & E & _ & H0 & _).
    fold d in E. rewrite (l_cdf _ _ LT) in E by discriminate. injection E as ->. apply H0, xlt_fin. exact Hr. }
  assert (HH : hurdleable d F (1 / 2)).
  { split; [exact LT|]. split; [intros r Hr; apply Z0; lra|]. split; [lra|]. cbn [d kind_of truncated die zero_edge]. rewrite Z0; lra. }
  destruct (H d F (1 / 2) HH eq_refl) as [r E]. clear H.
  (* the two ends *)
  pose proof (C17_ppf_inverts d F (1 / 2) (1 / 10000)) as PL. pose proof (C17_ppf_inverts d F (1 / 2) (9999 / 10000)) as PU.
  assert (EL : m_ppf (hurdle d (Fin (1 / 2))) (Fin (1 / 10000)) = Fin 0) by (apply (C17_rvs d F); auto; lra).
  assert (Z1 : F (Fin 3) = 1).
  { destruct (C12_cdf_shape _ _ _ _ TR (Fin 3) (number_fin _)) as (c & EE & _ & _ & H0 & _).
    fold d in EE. rewrite (l_cdf _ _ LT) in EE by discriminate. injection EE as ->. apply H0, xle_fin. lra. }
  assert (Z2 : F (Fin 2) = 1 / 2).
  { unfold F, conditional. rewrite BT. unfold below. replace (xsub (Fin (IZR 2)) (Fin 1)) with (Fin (IZR 1)) by (cbn; f_equal; ring).
    replace (xmin (Fin 2) (Fin (IZR 3))) with (Fin 2); [rewrite F1, F2; rewrite Rmax_right by lra; field|].
    assert (LE : xle (Fin 2) (Fin (IZR 3))) by (apply xle_fin; lra). unfold xmin. now rewrite LE. }
  assert (HL : forall x, 0 <= x -> hurdle_law 0 (1 / 2) F (Fin x) = 1 / 2 + 1 / 2 * (Rmax 0 (F (Fin x)))).
  { intros x Hx. unfold hurdle_law. cbn [xltb]. rewrite Rltb_false by lra. rewrite (Z0 0) by lra. rewrite !Rminus_0_r. field. }
  assert (EU : m_ppf (hurdle d (Fin (1 / 2))) (Fin (9999 / 10000)) = Fin 3).
  { set (v := m_ppf (hurdle d (Fin (1 / 2))) (Fin (9999 / 10000))) in *.
    assert (GAL : forall x, number x -> (xle v x <-> 9999 / 10000 <= hurdle_law 0 (1 / 2) F x)).
    { intros x Nx. apply (PU x HH); auto; lra. }
    assert (V3 : xle v (Fin 3)). { apply GAL; [discriminate|]. rewrite HL, Z1, Rmax_right by lra. lra. }
    destruct v as [v| | |]; [|discriminate| |discriminate].
    - apply xle_fin in V3. destruct (Rlt_le_dec v 3) as [C|C]; [exfalso|f_equal; lra].
      assert (X : xle (Fin v) (Fin v)) by (apply xle_fin; lra). apply GAL in X; [|discriminate].
      destruct (Rlt_le_dec v 0) as [D|D]; [unfold hurdle_law in X; cbn [xltb] in X; rewrite Rltb_true in X by lra; lra|].
      rewrite HL in X by lra. rewrite (proj1 (l_disc _ _ LT eq_refl) v) in X.
      assert (Rfloor v <= 2). { unfold Rfloor. pose proof (base_Int_part v). assert (IZR (Int_part v) < IZR 3) as Q by lra. apply lt_IZR in Q. apply IZR_le. lia. }
      assert (F (Fin (Rfloor v)) <= 1 / 2) by (rewrite <- Z2; apply (l_mono _ _ LT), xle_fin; lra).
      assert (Rmax 0 (F (Fin (Rfloor v))) <= 1 / 2) by (apply Rmax_lub; lra). lra.
    - exfalso. assert (X : xle NInf NInf) by reflexivity. apply GAL in X; [|discriminate]. unfold hurdle_law in X. cbn [xltb] in X. lra. }
  assert (GR : grid (hurdle d (Fin (1 / 2))) "restricted" = Ok (map (fun z => Fin (IZR z)) [0; 1; 2; 3]%Z)).
  { unfold grid, finite_endpoints. destruct (m_supp (hurdle d (Fin (1 / 2)))) as [lo up].
    cbn [String.eqb Ascii.eqb Bool.eqb orb negb bind]. rewrite !orb_true_r. rewrite EL, EU.
    change (kind_of (hurdle d (Fin (1 / 2)))) with Discrete. cbn iota. unfold discrete_xvals. change 0 with (IZR 0). rewrite !int_of_IZR. reflexivity. }
  unfold grid_entropy, over_grid in E. rewrite GR in E. cbn [bind] in E. change (kind_of (hurdle d (Fin (1 / 2)))) with Discrete in E. cbn iota in E.
  apply ok_inj in E. cbn [map] in E.
  assert (W : m_logpdf (hurdle d (Fin (1 / 2))) (Fin (IZR 1)) = NInf).
  { cbn [m_logpdf hurdle]. unfold h_logpdf. cbn [xeqb]. rewrite Reqb_false by lra. cbn [m_logpdf d truncated]. unfold t_logpdf at 1. cbn [xltb].
    rewrite (Rltb_true (IZR 1) (IZR 2)) by (apply IZR_lt; lia). cbn [orb]. cbn [xlog]. rewrite (Rltb_true 0 (1 / 2)) by lra. cbn [xadd].
    rewrite (l_cdf _ _ LT) by discriminate. rewrite Z0 by (pose proof eps_small; lra). cbn [xsub xadd xneg xlog]. rewrite Rltb_true by lra. reflexivity. }
  unfold xsum in E. cbn [fold_right] in E. rewrite W in E. cbn [xexp] in E.
  rewrite zero_ninf in E.
  cbn [xadd] in E. destruct (xmul _ _) in E; discriminate.
Qed.

(* ------------------------------------------------------------------ censored *)
Lemma xlogx_plogp p : 0 <= p -> xlogx (Fin p) = Fin (plogp p).
Proof.
  intro H. unfold xlogx, plogp. cbn [xeqb]. destruct (Reqb p 0) eqn:E; [reflexivity|].
  assert (p <> 0). { intros ->. rewrite Reqb_refl in E. discriminate. }
  cbn [xlog]. rewrite Rltb_true by lra. reflexivity.
Qed.
Lemma plogp_div p P : 0 <= p -> 0 < P -> plogp (p / P) = / P * plogp p - ln P / P * p.
Proof.
  intros Hp HP. unfold plogp. assert (0 < / P) by (apply Rinv_0_lt_compat; lra).
  destruct (Req_dec p 0) as [->|Hn].
  - replace (0 / P) with 0 by (field; lra). rewrite Reqb_refl. ring.
  - assert (0 < p) by lra. assert (0 < p / P) by (apply Rdiv_lt_0_compat; lra). rewrite !Reqb_false by lra.
    unfold Rdiv at 2. rewrite ln_mult, ln_Rinv by lra. field. lra.
Qed.
(** The probabilities of the truncated and of the clipped variable between the bounds. *)
Lemma conditional_pmf d F a b z : lawful d F -> (a <= z <= b)%Z -> 0 < between Discrete F (Fin (IZR a)) (Fin (IZR b)) ->
  conditional Discrete F (Fin (IZR a)) (Fin (IZR b)) (Fin (IZR z)) - conditional Discrete F (Fin (IZR a)) (Fin (IZR b)) (Fin (IZR z - 1)) =
  (F (Fin (IZR z)) - F (Fin (IZR z - 1))) / between Discrete F (Fin (IZR a)) (Fin (IZR b)).
Proof.
  intros L Hz HB. unfold conditional. unfold below. cbn [xsub xadd xneg]. fold (IZR a - 1).
  assert (IZR a <= IZR z <= IZR b) by (split; apply IZR_le; lia).
  assert (LE : forall x, x <= IZR b -> xmin (Fin x) (Fin (IZR b)) = Fin x).
  { intros x Hx. assert (E : xle (Fin x) (Fin (IZR b))) by (apply xle_fin; lra). unfold xmin. now rewrite E. }
  rewrite !LE by lra.
  assert (MON : forall x y, x <= y -> F (Fin x) <= F (Fin y)) by (intros; apply (l_mono _ _ L), xle_fin; lra).
  rewrite !Rmax_right.
  - field. lra.
  - pose proof (MON (IZR a - 1) (IZR z - 1)). lra.
  - pose proof (MON (IZR a - 1) (IZR z)). lra.
Qed.
Lemma entropy_of_part d F a b : lawful d F -> (a <= b)%Z -> 0 < between Discrete F (Fin (IZR a)) (Fin (IZR b)) ->
  let P := between Discrete F (Fin (IZR a)) (Fin (IZR b)) in
  law_entropy (conditional Discrete F (Fin (IZR a)) (Fin (IZR b))) a b * P - plogp P =
  - rsum (map (fun z => plogp (F (Fin (IZR z)) - F (Fin (IZR z - 1)))) (arange a (b + 1))).
Proof.
  intros L Hab HB P. unfold law_entropy. fold (rsum (map (fun z => plogp (conditional Discrete F (Fin (IZR a)) (Fin (IZR b)) (Fin (IZR z)) -
    conditional Discrete F (Fin (IZR a)) (Fin (IZR b)) (Fin (IZR z - 1)))) (arange a (b + 1)))).
  rewrite (rsum_ext _ (fun z => / P * plogp (F (Fin (IZR z)) - F (Fin (IZR z - 1))) + - (ln P / P) * (F (Fin (IZR z)) - F (Fin (IZR z - 1))))).
  - rewrite rsum_plus, !rsum_scale, telescope by lia. fold P in HB.
    replace (F (Fin (IZR (b + 1) - 1)) - F (Fin (IZR a - 1))) with P.
    2:{ unfold P, between, below. rewrite plus_IZR. replace (IZR b + 1 - 1) with (IZR b) by ring. reflexivity. }
    unfold plogp at 2. rewrite Reqb_false by lra. field. lra.
  - intros z Hz. apply arange_in in Hz. rewrite (conditional_pmf d) by (auto; lia). fold P.
    rewrite plogp_div; [ring| |exact HB].
    assert (F (Fin (IZR z - 1)) <= F (Fin (IZR z))) by (apply (l_mono _ _ L), xle_fin; lra). lra.
Qed.
Lemma entropy_of_clipped d F a b : lawful d F -> (a < b)%Z ->
  law_entropy (clipped F (Fin (IZR a)) (Fin (IZR b))) a b =
  - rsum (map (fun z => plogp (F (Fin (IZR z)) - F (Fin (IZR z - 1)))) (arange a (b + 1)))
  + plogp (F (Fin (IZR a)) - F (Fin (IZR a - 1))) + plogp (F (Fin (IZR b)) - F (Fin (IZR b - 1)))
  - plogp (F (Fin (IZR a))) - plogp (1 - F (Fin (IZR b - 1))).
Proof.
  intros L Hab. unfold law_entropy. fold (rsum (map (fun z => plogp (clipped F (Fin (IZR a)) (Fin (IZR b)) (Fin (IZR z)) -
    clipped F (Fin (IZR a)) (Fin (IZR b)) (Fin (IZR z - 1)))) (arange a (b + 1)))).
  assert (HA : arange a (a + 1) = [a]). { unfold arange. replace (Z.to_nat (a + 1 - a)) with 1%nat by lia. cbn [seq map]. f_equal. lia. }
  assert (HB : arange b (b + 1) = [b]). { unfold arange. replace (Z.to_nat (b + 1 - b)) with 1%nat by lia. cbn [seq map]. f_equal. lia. }
  rewrite (arange_split a (a + 1) (b + 1)), (arange_split (a + 1) b (b + 1)), HA, HB by lia.
  rewrite !map_app, !rsum_app. cbn [map]. unfold rsum at 1 3 4 6. cbn [fold_right].
  assert (CL : forall z, (a <= z < b)%Z -> clipped F (Fin (IZR a)) (Fin (IZR b)) (Fin (IZR z)) = F (Fin (IZR z))).
  { intros z Hz. assert (IZR a <= IZR z) by (apply IZR_le; lia). assert (IZR z < IZR b) by (apply IZR_lt; lia). unfold clipped.
    cbn [xltb]. rewrite Rltb_false by lra. unfold xleb. cbn [xltb xeqb]. rewrite Rltb_false, Reqb_false by lra. reflexivity. }
  assert (CB : clipped F (Fin (IZR a)) (Fin (IZR b)) (Fin (IZR b)) = 1).
  { assert (IZR a < IZR b) by (apply IZR_lt; lia). unfold clipped. cbn [xltb]. rewrite Rltb_false by lra. unfold xleb. cbn [xltb xeqb].
    rewrite Reqb_refl, orb_true_r. reflexivity. }
  assert (CA : clipped F (Fin (IZR a)) (Fin (IZR b)) (Fin (IZR a - 1)) = 0).
  { unfold clipped. cbn [xltb]. rewrite Rltb_true by lra. reflexivity. }
  rewrite CA, CB, (CL a) by lia. rewrite <- (minus_IZR b 1), (CL (b - 1)%Z), minus_IZR by lia. rewrite Rminus_0_r.
  rewrite (rsum_ext _ (fun z => plogp (F (Fin (IZR z)) - F (Fin (IZR z - 1)))) (arange (a + 1) b)); [ring|].
  intros z Hz. apply arange_in in Hz. rewrite (CL z) by lia. rewrite <- minus_IZR, (CL (z - 1)%Z) by lia. reflexivity.
Qed.
(** entropy() of a censored discrete distribution, given the entropy of the truncated one: the Shannon entropy of the clipped variable
    plus two terms. They cancel only by coincidence (or when nothing is censored and the bounds have probability one or zero). *)
Theorem C61_censored_entropy : forall d F a b, lawful d F -> kind_of d = Discrete -> (a < b)%Z ->
  0 < between Discrete F (Fin (IZR a)) (Fin (IZR b)) ->
  let p z := F (Fin (IZR z)) - F (Fin (IZR z - 1)) in
  c_entropy d (Fin (IZR a)) (Fin (IZR b)) (Fin (law_entropy (conditional Discrete F (Fin (IZR a)) (Fin (IZR b))) a b)) =
  Fin (law_entropy (clipped F (Fin (IZR a)) (Fin (IZR b))) a b
       + (plogp (F (Fin (IZR a - 1))) - plogp (p a)) + (plogp (1 - F (Fin (IZR b))) - plogp (p b))).
Proof.
  intros d F a b L K Hab HB p. set (P := between Discrete F (Fin (IZR a)) (Fin (IZR b))) in *.
  pose proof (entropy_of_part d F a b L ltac:(lia) HB) as EP. fold P in EP. cbn zeta in EP. fold P in EP.
  rewrite (entropy_of_clipped d F a b L Hab). set (H := law_entropy (conditional Discrete F (Fin (IZR a)) (Fin (IZR b))) a b) in *.
  set (S := rsum (map (fun z => plogp (F (Fin (IZR z)) - F (Fin (IZR z - 1)))) (arange a (b + 1)))) in *.
  assert (RG : forall x, 0 <= F (Fin x) <= 1) by (intro x; apply (F_range L); discriminate).
  pose proof (proj2 (l_disc _ _ L K)) as PM. unfold c_entropy. rewrite K, !PM, !(l_cdf _ _ L) by discriminate. cbn [nan_to_num].
  cbn [xsub xadd xneg].
  replace (F (Fin (IZR a)) + - (F (Fin (IZR a)) - F (Fin (IZR a - 1)))) with (F (Fin (IZR a - 1))) by ring.
  replace (1 + - F (Fin (IZR b)) + (F (Fin (IZR b)) - F (Fin (IZR b - 1)))) with (1 - F (Fin (IZR b - 1))) by ring.
  replace (1 + - (F (Fin (IZR a - 1)) + (1 + - F (Fin (IZR b))))) with P.
  2:{ unfold P, between, below. cbn [xsub xadd xneg]. fold (IZR a - 1). ring. }
  fold (1 - F (Fin (IZR b))). rewrite !xlogx_plogp by (pose proof (RG (IZR b)); pose proof (RG (IZR b - 1)); pose proof (RG (IZR a)); pose proof (RG (IZR a - 1)); lra).
  cbn [xmul xsub xadd xneg]. f_equal. unfold p. lra.
Qed.
(** A fair die with four faces censored below 2: the clipped variable is 2, 2, 3, 4 but entropy() is too large by (log 4) / 4. *)
Theorem C61_censored_entropy_refuted :
  ~ (forall d F a b, lawful d F -> kind_of d = Discrete -> (a < b)%Z -> 0 < between Discrete F (Fin (IZR a)) (Fin (IZR b)) ->
      c_entropy d (Fin (IZR a)) (Fin (IZR b)) (Fin (law_entropy (conditional Discrete F (Fin (IZR a)) (Fin (IZR b))) a b)) =
      Fin (law_entropy (clipped F (Fin (IZR a)) (Fin (IZR b))) a b)).
Proof.
  intro H. assert (L := die_lawful 4 ltac:(lia)).
  assert (FZ : forall z, die_F 4 (Fin (IZR z)) = IZR (Z.max 0 (Z.min z 4)) / 4) by (intro; apply die_F_IZR; lia).
  assert (B : 0 < between Discrete (die_F 4) (Fin (IZR 2)) (Fin (IZR 4))).
  { unfold between, below. replace (xsub (Fin (IZR 2)) (Fin 1)) with (Fin (IZR 1)) by (cbn; f_equal; ring). rewrite !FZ. cbn. lra. }
  specialize (H (die 4) (die_F 4) 2%Z 4%Z L eq_refl ltac:(lia) B).
  rewrite (C61_censored_entropy (die 4) (die_F 4) 2 4 L eq_refl ltac:(lia) B) in H. apply fin_inj in H.
  rewrite <- !(minus_IZR _ 1), !FZ in H. cbn -[Rdiv] in H.
  replace (2 / 4 - 1 / 4) with (1 / 4) in H by field. replace (1 - 4 / 4) with 0 in H by field. replace (4 / 4 - 3 / 4) with (1 / 4) in H by field.
  unfold plogp in H. rewrite Reqb_refl, (Reqb_false (1 / 4) 0) in H by lra.
  assert (ln (1 / 4) < 0). { rewrite <- ln_1. apply ln_increasing; lra. } lra.
Qed.
(** kurtosis() of a censored distribution is not that of the clipped variable: it mixes moments standardised by different scales.
    For 1, 2, 3, 3 the code reports -1.70 instead of -1.37. *)
Theorem C61_censored_kurtosis_refuted :
  ~ (forall d F s t a b, lawful d F -> kind_of d = Discrete -> values_in F s t ->
      (s <= a)%Z -> (a < b)%Z -> (b <= t)%Z -> 0 < between Discrete F (Fin (IZR a)) (Fin (IZR b)) ->
      let T := conditional Discrete F (Fin (IZR a)) (Fin (IZR b)) in
      c_kurt d (Fin (IZR a)) (Fin (IZR b)) (Fin (law_mean T a b)) (Fin (law_var T a b)) (Fin (law_moment T a b 4 - 3)) =
      Fin (law_moment (clipped F (Fin (IZR a)) (Fin (IZR b))) a b 4 - 3)).
Proof.
  intro H. destruct die4_facts as [Ht Hb]. assert (L4 := die_lawful 4 ltac:(lia)).
  specialize (H (die 4) (die_F 4) 1%Z 4%Z 1%Z 3%Z L4 eq_refl (die_values 4 ltac:(lia)) ltac:(lia) ltac:(lia) ltac:(lia) Hb).
  assert (FZ : forall z, die_F 4 (Fin (IZR z)) = IZR (Z.max 0 (Z.min z 4)) / 4) by (intro; apply die_F_IZR; lia).
  set (T := conditional Discrete (die_F 4) (Fin (IZR 1)) (Fin (IZR 3))) in *.
  set (C := clipped (die_F 4) (Fin (IZR 1)) (Fin (IZR 3))) in *. cbn zeta in H.
  assert (BT : between Discrete (die_F 4) (Fin (IZR 1)) (Fin (IZR 3)) = 3 / 4).
  { unfold between, below. replace (xsub (Fin (IZR 1)) (Fin 1)) with (Fin (IZR 0)) by (cbn; f_equal; ring). rewrite !FZ. cbn. field. }
  assert (ET : forall g, expect T 1 3 g = (g 1 + g 2 + g 3) / 3).
  { intro g. unfold expect. change (arange 1 (3 + 1)) with [1; 2; 3]%Z. cbn [map fold_right].
    unfold T. rewrite !(conditional_pmf (die 4)) by (auto; lia). rewrite BT, <- !minus_IZR, !FZ. cbn -[Rdiv]. field. }
  assert (EC : forall g, expect C 1 3 g = (g 1 + g 2 + 2 * g 3) / 4).
  { intro g. unfold expect. change (arange 1 (3 + 1)) with [1; 2; 3]%Z. cbn [map fold_right].
    rewrite <- !minus_IZR. cbn [Z.sub Z.add Z.opp Z.pos_sub Pos.pred_double Z.pred_double].
    assert (C0 : C (Fin (IZR 0)) = 0). { unfold C, clipped. cbn [xltb]. rewrite Rltb_true by lra. reflexivity. }
    assert (C1 : C (Fin (IZR 1)) = 1 / 4). { unfold C, clipped. unfold xleb. cbn [xltb xeqb]. rewrite !Rltb_false, Reqb_false by lra. cbn [orb]. rewrite FZ. cbn -[Rdiv]. reflexivity. }
    assert (C2 : C (Fin (IZR 2)) = 2 / 4). { unfold C, clipped. unfold xleb. cbn [xltb xeqb]. rewrite !Rltb_false, Reqb_false by lra. cbn [orb]. rewrite FZ. cbn -[Rdiv]. reflexivity. }
    assert (C3 : C (Fin (IZR 3)) = 1). { unfold C, clipped. unfold xleb. cbn [xltb xeqb]. rewrite !Rltb_false, Reqb_refl by lra. reflexivity. }
    change (1 - 1)%Z with 0%Z. change (2 - 1)%Z with 1%Z. change (3 - 1)%Z with 2%Z. rewrite C0, C1, C2, C3. field. }
  assert (TM : law_mean T 1 3 = 2) by (unfold law_mean; rewrite ET; field).
  assert (TV : law_var T 1 3 = 2 / 3) by (unfold law_var; rewrite TM, ET; field).
  assert (CM : law_mean C 1 3 = 9 / 4) by (unfold law_mean; rewrite EC; field).
  assert (CV : law_var C 1 3 = 11 / 16) by (unfold law_var; rewrite CM, EC; field).
  set (s1 := sqrt (11 / 16)). set (s2 := sqrt (2 / 3)).
  assert (S1 : s1 * s1 = 11 / 16) by (apply sqrt_sqrt; lra). assert (S2 : s2 * s2 = 2 / 3) by (apply sqrt_sqrt; lra).
  assert (P1 : 0 < s1) by (apply sqrt_lt_R0; lra). assert (P2 : 0 < s2) by (apply sqrt_lt_R0; lra).
  assert (Q1 : forall x, (x / s1) ^ 4 = x ^ 4 * (256 / 121)).
  { intro x. transitivity (x ^ 4 / ((s1 * s1) * (s1 * s1))); [field; lra|]. rewrite S1. field. }
  assert (Q2 : forall x, (x / s2) ^ 4 = x ^ 4 * (9 / 4)).
  { intro x. transitivity (x ^ 4 / ((s2 * s2) * (s2 * s2))); [field; lra|]. rewrite S2. field. }
  assert (K4 : law_moment T 1 3 4 = 3 / 2) by (unfold law_moment; rewrite TM, TV; fold s2; rewrite ET, !Q2; field).
  assert (J4 : law_moment C 1 3 4 = 197 / 121) by (unfold law_moment; rewrite CM, CV; fold s1; rewrite EC, !Q1; field).
  rewrite TM, TV, K4, J4 in H.
  set (tp := fun z => if (1 <=? z)%Z && (z <=? 3)%Z then 1 / 3 else 0) in Ht.
  assert (Gm : grid_mean tp [1; 2; 3]%Z = 2) by (unfold grid_mean, rsum, tp; cbn; field).
  assert (Gv : grid_var tp [1; 2; 3]%Z = 2 / 3) by (unfold grid_var; rewrite Gm; unfold rsum, tp; cbn; field).
  assert (Mu : expect (die_F 4) 1 4 (clipR 1 3) = 9 / 4 /\ expect (die_F 4) 1 4 (fun x => (clipR 1 3 x - 9 / 4) ^ 2) = 11 / 16).
  { assert (Ex : forall g, expect (die_F 4) 1 4 g = (g 1 + g 2 + g 3 + g 4) / 4).
    { intro g. unfold expect. change (arange 1 (4 + 1)) with [1; 2; 3; 4]%Z. cbn [map fold_right].
      rewrite <- !minus_IZR, !FZ. cbn -[Rdiv]. field. }
    assert (Cl : clipR 1 3 1 = 1 /\ clipR 1 3 2 = 2 /\ clipR 1 3 3 = 3 /\ clipR 1 3 4 = 3).
    { unfold clipR. rewrite !Rmin_left, !(Rmin_right 4) by lra. rewrite !Rmax_right by lra. auto. }
    destruct Cl as (C1 & C2 & C3 & C4). rewrite !Ex, C1, C2, C3, C4. split; field. }
  destruct Mu as [Mu Vu].
  assert (Em : c_mean (die 4) (Fin 1) (Fin 3) (Fin 2) = Fin (9 / 4)).
  { rewrite <- Mu, <- Gm. apply (c_mean_correct L4 eq_refl 1 4 1 3 (die_values 4 ltac:(lia)) ltac:(lia) ltac:(lia) ltac:(lia) Hb tp Ht). }
  assert (Ev : c_var (die 4) (Fin 1) (Fin 3) (Fin 2) (Fin (2 / 3)) = Fin (11 / 16)).
  { pose proof (c_var_correct L4 eq_refl 1 4 1 3 (die_values 4 ltac:(lia)) ltac:(lia) ltac:(lia) ltac:(lia) Hb tp Ht _ eq_refl) as E.
    change (arange 1 (3 + 1)) with [1; 2; 3]%Z in E. rewrite Gm, Gv in E. rewrite E. f_equal. rewrite Mu. exact Vu. }
  unfold c_kurt in H. rewrite Em, Ev in H. unfold c_p_low in H. cbn [kind_of die] in H.
  replace (xsub (Fin 1) (Fin 1)) with (Fin (IZR 0)) in H by (cbn; f_equal; ring).
  rewrite !(l_cdf _ _ L4) in H by auto. rewrite (FZ 0%Z), (FZ 3%Z) in H.
  unfold xhalf in H. rewrite !Rltb_false in H by lra. fold s1 s2 in H.
  cbn [xsub xadd xneg] in H. rewrite !xdiv_fin, !xpow_fin in H by lra. unfold xprody in H. cbn [xisinf xmul xadd xneg] in H.
  apply fin_inj in H. rewrite !Q1, !Q2 in H. cbn -[Rdiv pow] in H. lra.
Qed.

(** What skewness() and kurtosis() of a censored discrete distribution on {s, ..., t} report: the two bounds enter with the probabilities beyond them,
    standardised by the mean and the variance of the clipped variable, but the part between the bounds by the variance of the truncated one. *)
Theorem C61_censored_moments : forall d F s t a b tpdf sk ku, lawful d F -> kind_of d = Discrete -> values_in F s t ->
  (s <= a)%Z -> (a <= b)%Z -> (b <= t)%Z -> 0 < between Discrete F (Fin (IZR a)) (Fin (IZR b)) ->
  (forall z, m_pdf (truncated d (Fin (IZR a)) (Fin (IZR b))) (Fin (IZR z)) = Fin (tpdf z)) ->
  let clip := clipR (IZR a) (IZR b) in
  let m := grid_mean tpdf (arange a (b + 1)) in let v := grid_var tpdf (arange a (b + 1)) in
  let mu := expect F s t clip in let sigma := sqrt (expect F s t (fun x => (clip x - mu) ^ 2)) in
  let p_low := F (Fin (IZR a - 1)) in let p_up := 1 - F (Fin (IZR b)) in
  0 < expect F s t (fun x => (clip x - mu) ^ 2) -> 0 < v ->
  c_skew d (Fin (IZR a)) (Fin (IZR b)) (Fin m) (Fin v) (Fin sk) =
    Fin (p_low * ((IZR a - mu) / sigma) ^ 3 + (1 - p_low - p_up) * (sk + ((m - mu) / sqrt v) ^ 3) + p_up * ((IZR b - mu) / sigma) ^ 3) /\
  c_kurt d (Fin (IZR a)) (Fin (IZR b)) (Fin m) (Fin v) (Fin ku) =
    Fin (p_low * ((IZR a - mu) / sigma) ^ 4 + (1 - p_low - p_up) * (ku + 3 + ((m - mu) / sqrt v) ^ 4) + p_up * ((IZR b - mu) / sigma) ^ 4 - 3).
Proof.
  intros d F s t a b tpdf sk ku L K V H1 H2 H3 Hp Ht clip m v mu sigma p_low p_up HV Hv.
  pose proof (c_mean_correct L K s t a b V H1 H2 H3 Hp tpdf Ht) as Em. pose proof (c_var_correct L K s t a b V H1 H2 H3 Hp tpdf Ht mu eq_refl) as Ev.
  fold clip m mu in Em. fold clip m v in Ev. set (var := expect F s t (fun x => (clip x - mu) ^ 2)) in *.
  assert (S1 : 0 < sigma) by (apply sqrt_lt_R0; exact HV). assert (S2 : 0 < sqrt v) by (apply sqrt_lt_R0; exact Hv).
  assert (X1 : xhalf (Fin var) = Fin sigma) by (unfold xhalf; rewrite Rltb_false by lra; reflexivity).
  assert (X2 : xhalf (Fin v) = Fin (sqrt v)) by (unfold xhalf; rewrite Rltb_false by lra; reflexivity).
  assert (PL : m_cdf d (xsub (Fin (IZR a)) (Fin 1)) = Fin p_low) by (rewrite (l_cdf _ _ L) by discriminate; reflexivity).
  assert (PU : m_cdf d (Fin (IZR b)) = Fin (1 - p_up)) by (rewrite (l_cdf _ _ L) by discriminate; unfold p_up; f_equal; ring).
  unfold c_skew, c_kurt, c_p_low. rewrite K, Em, Ev, X1, X2, PL, PU. cbn [xsub xadd xneg].
  rewrite !xdiv_fin, !xpow_fin by lra. unfold xprody. cbn [xisinf xmul xsub xadd xneg]. clearbody sigma.
  split; f_equal; unfold Rminus, Rdiv; ring.
Qed.
(** entropy() of a censored continuous distribution, given the entropy H of the truncated one: with P the probability between the bounds, the part between
    them contributes P H - P log P and each bound -p log p for its probability p, as it should be. The bounds may be infinite. *)
Theorem C61_censored_entropy_continuous : forall d F lower upper H, lawful d F -> kind_of d = Continuous -> number lower -> number upper -> xle lower upper ->
  let P := F upper - F lower in
  c_entropy d lower upper (Fin H) = Fin (P * H - plogp P - plogp (F lower) - plogp (1 - F upper)).
Proof.
  intros d F lower upper H L K N1 N2 LE P. unfold c_entropy. rewrite K, !(l_cdf _ _ L) by assumption. cbn [xsub xadd xneg].
  pose proof (l_mono _ _ L _ _ LE) as M. pose proof (F_range L lower N1). pose proof (F_range L upper N2).
  rewrite !xlogx_plogp by lra. cbn [xmul xsub xadd xneg]. f_equal.
  replace (1 + - (F lower + (1 + - F upper))) with P by (unfold P; ring). fold (1 - F upper). ring.
Qed.
(** A missing bound of a censored discrete distribution counts as one beyond all values: with no lower bound, for instance, entropy() is what the bound s - 1
    below all values gives. The density at an infinite bound is nan or 0. *)
Theorem C61_censored_entropy_open : forall d F s t a b H, lawful d F -> kind_of d = Discrete -> values_in F s t -> (s <= b)%Z -> (a <= t)%Z ->
  (m_pdf d NInf = NaN \/ m_pdf d NInf = Fin 0) -> (m_pdf d PInf = NaN \/ m_pdf d PInf = Fin 0) ->
  c_entropy d NInf (Fin (IZR b)) (Fin H) = c_entropy d (Fin (IZR (s - 1))) (Fin (IZR b)) (Fin H) /\
  c_entropy d (Fin (IZR a)) PInf (Fin H) = c_entropy d (Fin (IZR a)) (Fin (IZR (t + 1))) (Fin H).
Proof.
  intros d F s t a b H L K [V0 V1] B A PN PP. pose proof (proj2 (l_disc _ _ L K)) as PM.
  assert (F1 : F (Fin (IZR (s - 1))) = 0) by (rewrite minus_IZR; exact V0).
  assert (F2 : F (Fin (IZR (s - 1) - 1)) = 0).
  { assert (F (Fin (IZR (s - 1) - 1)) <= F (Fin (IZR (s - 1)))) by (apply (l_mono _ _ L), xle_fin; lra).
    pose proof (F_range L (Fin (IZR (s - 1) - 1)) ltac:(discriminate)). lra. }
  assert (F3 : F (Fin (IZR (t + 1))) = 1).
  { assert (F (Fin (IZR t)) <= F (Fin (IZR (t + 1)))) by (apply (l_mono _ _ L), xle_fin; rewrite plus_IZR; lra).
    pose proof (F_range L (Fin (IZR (t + 1))) ltac:(discriminate)). lra. }
  assert (F4 : F (Fin (IZR (t + 1) - 1)) = 1) by (rewrite plus_IZR; replace (IZR t + 1 - 1) with (IZR t) by ring; exact V1).
  assert (Z1 : nan_to_num (m_pdf d NInf) = Fin 0) by (destruct PN as [-> | ->]; reflexivity).
  assert (Z2 : nan_to_num (m_pdf d PInf) = Fin 0) by (destruct PP as [-> | ->]; reflexivity).
  unfold c_entropy. rewrite K, Z1, Z2, !PM, !(l_cdf _ _ L) by discriminate. rewrite F1, F2, F3, F4, (l_lo _ _ L), (l_hi _ _ L).
  cbn [nan_to_num xsub xadd xneg]. split; repeat f_equal; ring.
Qed.

Example C61_censored_case : exists tpdf, let m := grid_mean tpdf [1; 2; 3]%Z in let v := grid_var tpdf [1; 2; 3]%Z in
  (forall z, m_pdf (truncated (die 4) (Fin 1) (Fin 3)) (Fin (IZR z)) = Fin (tpdf z)) /\ 0 < v /\
  0 < expect (die_F 4) 1 4 (fun x => (clipR 1 3 x - expect (die_F 4) 1 4 (clipR 1 3)) ^ 2).
Proof.
  destruct die4_facts as [Ht Hb]. set (tp := fun z => if (1 <=? z)%Z && (z <=? 3)%Z then 1 / 3 else 0) in Ht.
  exists tp. split; [exact Ht|].
  assert (FZ : forall z, die_F 4 (Fin (IZR z)) = IZR (Z.max 0 (Z.min z 4)) / 4) by (intro; apply die_F_IZR; lia).
  assert (Gm : grid_mean tp [1; 2; 3]%Z = 2) by (unfold grid_mean, rsum, tp; cbn; field).
  assert (Gv : grid_var tp [1; 2; 3]%Z = 2 / 3) by (unfold grid_var; rewrite Gm; unfold rsum, tp; cbn; field).
  assert (Ex : forall g, expect (die_F 4) 1 4 g = (g 1 + g 2 + g 3 + g 4) / 4).
  { intro g. unfold expect. change (arange 1 (4 + 1)) with [1; 2; 3; 4]%Z. cbn [map fold_right]. rewrite <- !minus_IZR, !FZ. cbn -[Rdiv]. field. }
  assert (Cl : clipR 1 3 1 = 1 /\ clipR 1 3 2 = 2 /\ clipR 1 3 3 = 3 /\ clipR 1 3 4 = 3).
  { unfold clipR. rewrite !Rmin_left, !(Rmin_right 4) by lra. rewrite !Rmax_right by lra. auto. }
  destruct Cl as (C1 & C2 & C3 & C4). rewrite Gv, !Ex, C1, C2, C3, C4. split; lra.
Qed.
Example C61_censored_open_case : kind_of unif = Continuous /\ lawful unif unif_F /\ values_in (die_F 4) 1 4 /\ nan_to_num NaN = Fin 0.
Proof. split; [reflexivity|]. split; [exact unif_lawful|]. split; [exact (die_values 4 ltac:(lia)) | reflexivity]. Qed.

(* ------------------------------------------------------------------ continuous distributions: the trapezoid rule *)
Section Trapezoid.
Variables (g : xr -> xr) (h H : R -> R) (a b L : R).
Hypothesis Hab : a < b.
Hypothesis Hg : forall x, a <= x <= b -> g (Fin x) = Fin (h x).
Hypothesis HL : forall x y, a <= x <= b -> a <= y <= b -> Rabs (h x - h y) <= L * Rabs (x - y).
Hypothesis HD : forall x, a <= x <= b -> derivable_pt_lim H x (h x).

Lemma panel_error x0 x1 : a <= x0 -> x0 < x1 -> x1 <= b ->
  Rabs ((x1 - x0) * (h x1 + h x0) / 2 - (H x1 - H x0)) <= L * (x1 - x0) ^ 2 / 2.
Proof using HL HD.
  intros A B C. destruct (MVT_cor2 H h x0 x1 B) as (c & E & I); [intros; apply HD; lra|]. rewrite E.
  pose proof (HL x1 c ltac:(lra) ltac:(lra)) as L1. pose proof (HL x0 c ltac:(lra) ltac:(lra)) as L0.
  rewrite (Rabs_right (x1 - c)) in L1 by lra. rewrite (Rabs_left1 (x0 - c)) in L0 by lra.
  replace ((x1 - x0) * (h x1 + h x0) / 2 - h c * (x1 - x0)) with ((x1 - x0) / 2 * ((h x1 - h c) + (h x0 - h c))) by field.
  rewrite Rabs_mult, (Rabs_right ((x1 - x0) / 2)) by lra.
  replace (L * (x1 - x0) ^ 2 / 2) with ((x1 - x0) / 2 * (L * (x1 - c) + L * - (x0 - c))) by field.
  apply Rmult_le_compat_l; [lra|]. eapply Rle_trans; [apply Rabs_triang|]. lra.
Qed.
Variable N : nat.
Hypothesis HN : (0 < N)%nat.
Let step := (b - a) / INR N.
Let X (i : nat) := a + INR i * step.
Lemma X_range i : (i <= N)%nat -> a <= X i <= b.
Proof using Hab HN.
  intro Hi. apply le_INR in Hi. assert (0 < INR N) by (apply lt_0_INR; lia). pose proof (pos_INR i).
  assert (0 < step) by (apply Rdiv_lt_0_compat; lra). unfold X. split; [nra|].
  replace b with (a + INR N * step) at 1 by (unfold step; field; lra). nra.
Qed.
Lemma panels_error n : forall k, (k + n <= N)%nat ->
  exists v, panels (Fin (X k)) (g (Fin (X k))) (map (fun i => Fin (X i)) (seq (S k) n)) (map g (map (fun i => Fin (X i)) (seq (S k) n))) = Fin v /\
    Rabs (v - (H (X (k + n)) - H (X k))) <= INR n * (L * step ^ 2 / 2).
Proof using Hab HN Hg HL HD.
  assert (PS : 0 < step) by (apply Rdiv_lt_0_compat; [lra|apply lt_0_INR; lia]).
  induction n as [|n IH]; intros k Hk.
  - exists 0. split; [reflexivity|]. rewrite Nat.add_0_r. replace (0 - _) with 0 by ring. rewrite Rabs_R0. cbn [INR]. lra.
  - destruct (IH (S k) ltac:(lia)) as (v & E & B). cbn [seq map panels].
    pose proof (X_range k ltac:(lia)) as Rk. pose proof (X_range (S k) ltac:(lia)) as Rs.
    rewrite E, !Hg by auto. cbn [xsub xneg xadd xmul]. rewrite xdiv_fin by lra. cbn [xadd].
    assert (D : X (S k) - X k = step) by (unfold X; rewrite S_INR; ring).
    fold (X (S k) - X k). eexists. split; [reflexivity|].
    pose proof (panel_error (X k) (X (S k)) ltac:(lra) ltac:(lra) ltac:(lra)) as P. rewrite D in *.
    replace (S k + n)%nat with (k + S n)%nat in B by lia.
    replace (step * (h (X (S k)) + h (X k)) / 2 + v - (H (X (k + S n)) - H (X k))) with
      ((step * (h (X (S k)) + h (X k)) / 2 - (H (X (S k)) - H (X k))) + (v - (H (X (k + S n)) - H (X (S k))))) by ring.
    eapply Rle_trans; [apply Rabs_triang|]. rewrite S_INR. lra.
Qed.
End Trapezoid.
(** mean(), var(), skewness(), kurtosis() of continuous truncated and hurdle distributions are integrals over the support by the
    trapezoid rule on 1000 points. If the integrand has Lipschitz constant L the error is at most L (b - a)^2 / 1998. *)
Theorem C61_trapezoid : forall d g h H a b L, kind_of d = Continuous -> m_supp d = (Fin a, Fin b) -> a < b ->
  (forall x, a <= x <= b -> g (Fin x) = Fin (h x)) ->
  (forall x y, a <= x <= b -> a <= y <= b -> Rabs (h x - h y) <= L * Rabs (x - y)) ->
  (forall x, a <= x <= b -> derivable_pt_lim H x (h x)) ->
  exists v, over_grid d "full" g = Ok (Fin v) /\ Rabs (v - (H b - H a)) <= L * (b - a) ^ 2 / 1998.
Proof.
  intros d g h H a b L K S AB Hg HL HD.
  destruct (panels_error g h H a b L AB Hg HL HD 999 ltac:(lia) 999 0 ltac:(lia)) as (v & E & B).
  exists v. split.
  - unfold over_grid, grid, finite_endpoints. rewrite S. cbn [String.eqb Ascii.eqb Bool.eqb orb negb bind xisfinite]. rewrite K. cbn [bind].
    f_equal. rewrite <- E. unfold linspace. rewrite map_map. cbn [Nat.add].
    change (seq 0 1000) with (0%nat :: seq 1 999). cbn [map trapezoid]. reflexivity.
  - cbn [Nat.add] in B. replace (INR 999) with 999 in B by (rewrite INR_IZR_INZ; reflexivity).
    replace (a + 999 * ((b - a) / 999)) with b in B by field. replace (a + INR 0 * ((b - a) / 999)) with a in B by (cbn; ring).
    eapply Rle_trans; [exact B|]. right. field.
Qed.
(** Means of continuous truncated or hurdle distributions with density [f]. *)
Corollary C61_continuous_mean : forall d f H a b L, kind_of d = Continuous -> m_supp d = (Fin a, Fin b) -> a < b ->
  (forall x, a <= x <= b -> m_pdf d (Fin x) = Fin (f x)) ->
  (forall x y, a <= x <= b -> a <= y <= b -> Rabs (x * f x - y * f y) <= L * Rabs (x - y)) ->
  (forall x, a <= x <= b -> derivable_pt_lim H x (x * f x)) ->
  exists v, grid_mean_of d = Ok (Fin v) /\ Rabs (v - (H b - H a)) <= L * (b - a) ^ 2 / 1998.
Proof.
  intros d f H a b L K S AB P HL HD. apply (C61_trapezoid d _ (fun x => x * f x) H a b L); auto.
  intros x Hx. now rewrite P by lra.
Qed.

(** The variance of a continuous hurdle ignores the mass at zero: for a uniform variable on [1/2, 1] behind a hurdle with psi = 1/2 it
    reports 0.08 instead of 0.15. *)
Theorem C61_hurdle_continuous_variance_refuted :
  ~ (forall d F psi f a b M1 M2, hurdleable d F psi -> kind_of d = Continuous -> 0 < a < b -> m_supp d = (Fin a, Fin b) ->
      (forall x, a <= x <= b -> m_pdf d (Fin x) = Fin (f x)) ->
      (forall x, a <= x <= b -> derivable_pt_lim M1 x (x * f x)) ->
      (forall x, a <= x <= b -> derivable_pt_lim M2 x (x ^ 2 * f x)) ->
      exists v, grid_var_of (hurdle d (Fin psi)) = Ok (Fin v) /\
        Rabs (v - (psi * (M2 b - M2 a) - (psi * (M1 b - M1 a)) ^ 2)) <= 1 / 100).
Proof.
  intro H. set (d := truncated unif (Fin (1 / 2)) (Fin 1)). set (F := conditional Continuous unif_F (Fin (1 / 2)) (Fin 1)).
  assert (CU : forall x, 0 <= x <= 1 -> LawProofs.clip01 x = x) by (intros x Hx; destruct (clip01_cases x) as [[? ->]|[[? ->]|[? ->]]]; lra).
  assert (BT : between Continuous unif_F (Fin (1 / 2)) (Fin 1) = 1 / 2) by (unfold between, below; cbn [unif_F]; rewrite !CU by lra; field).
  assert (TR : truncatable unif unif_F (Fin (1 / 2)) (Fin 1)).
  { split; [apply unif_lawful|]. split; [discriminate|]. split; [discriminate|]. cbn [kind_of unif]. rewrite BT. lra. }
  pose proof (C12_truncated_is_conditional _ _ _ _ TR) as LT. cbn [kind_of unif] in LT. fold F d in LT.
  assert (Z0 : forall r, r < 1 / 2 -> F (Fin r) = 0).
  { intros r Hr. destruct (C12_cdf_shape _ _ _ _ TR (Fin r) (number_fin _)) as (c & E & _ & H0 & _).
    fold d in E. rewrite (l_cdf _ _ LT) in E by discriminate. injection E as ->. apply H0, xlt_fin. exact Hr. }
  pose proof eps_small as ES. pose proof eps_pos as EPOS.
  assert (HH : hurdleable d F (1 / 2)).
  { split; [exact LT|]. split; [intros r Hr; apply Z0; lra|]. split; [lra|]. change (zero_edge (kind_of d)) with eps. rewrite Z0; lra. }
  assert (SP : m_supp d = (Fin (1 / 2), Fin 1)).
  { unfold d. cbn [truncated m_supp unif fst snd]. unfold np_maximum, np_minimum. cbn [xisnan orb xltb].
    rewrite Rltb_true, Rltb_false by lra. reflexivity. }
  assert (PD : forall x, 1 / 2 <= x <= 1 -> m_pdf d (Fin x) = Fin 2).
  { intros x Hx. unfold d. cbn [m_pdf truncated].
    rewrite (t_logpdf_inside unif_lawful (Fin (1 / 2)) (Fin 1)).
    - cbn [kind_of unif]. rewrite BT, (l_log _ _ unif_lawful) by discriminate. replace (m_pdf unif (Fin x)) with (Fin 1).
      + rewrite xexp_log_ratio by lra. f_equal. field.
      + cbn [m_pdf unif unif_pdf]. rewrite !Rleb_true by lra. reflexivity.
    - discriminate.
    - discriminate.
    - split; apply xle_fin; lra. }
  assert (D3 : forall m x, derivable_pt_lim (fun y => 1 / 3 * (y - m) ^ 3) x ((x - m) ^ 2)).
  { intros m x. replace ((x - m) ^ 2) with (1 / 3 * (INR 3 * (x - m) ^ pred 3 * (1 - 0))) by (cbn; field).
    apply (derivable_pt_lim_scal (fun y => (y - m) ^ 3)). 
    apply (derivable_pt_lim_comp (fun y => y - m) (fun y => y ^ 3)); [|apply derivable_pt_lim_pow].
    apply (derivable_pt_lim_minus id (fct_cte m)); [apply derivable_pt_lim_id|apply derivable_pt_lim_const]. }
  assert (D2 : forall x, derivable_pt_lim (fun y => y ^ 2) x (x * 2)).
  { intro x. replace (x * 2) with (INR 2 * x ^ pred 2) by (cbn; ring). apply derivable_pt_lim_pow. }
  assert (D3' : forall x, derivable_pt_lim (fun y => 2 / 3 * y ^ 3) x (x ^ 2 * 2)).
  { intro x. replace (x ^ 2 * 2) with (2 / 3 * (INR 3 * x ^ pred 3)) by (cbn; field). apply (derivable_pt_lim_scal (fun y => y ^ 3)), derivable_pt_lim_pow. }
  destruct (H d F (1 / 2) (fun _ => 2) (1 / 2) 1 (fun y => y ^ 2) (fun y => 2 / 3 * y ^ 3) HH eq_refl ltac:(lra) SP PD
    (fun x _ => D2 x) (fun x _ => D3' x)) as (v & E & B). clear H.
  assert (HP : forall x, 1 / 2 <= x <= 1 -> m_pdf (hurdle d (Fin (1 / 2))) (Fin x) = Fin 1).
  { intros x Hx. cbn [m_pdf hurdle]. unfold h_pdf. cbn [xeqb]. rewrite Reqb_false by lra. rewrite PD, (l_cdf _ _ LT) by (lra || discriminate).
    rewrite Z0 by lra. cbn [xmul xsub xadd xneg]. rewrite xdiv_fin by lra. f_equal. field. }
  assert (D1 : forall x, derivable_pt_lim (fun y => 1 / 2 * y ^ 2) x (x * 1)).
  { intro x. replace (x * 1) with (1 / 2 * (INR 2 * x ^ pred 2)) by (cbn; field). apply (derivable_pt_lim_scal (fun y => y ^ 2)), derivable_pt_lim_pow. }
  destruct (C61_continuous_mean (hurdle d (Fin (1 / 2))) (fun _ => 1) (fun y => 1 / 2 * y ^ 2) (1 / 2) 1 1 eq_refl SP ltac:(lra) HP) as (m & EM & BM).
  { intros x y _ _. rewrite !Rmult_1_r, Rmult_1_l. lra. }
  { intros x _. apply D1. }
  unfold grid_var_of in E. rewrite EM in E. cbn [bind] in E.
  assert (MB : Rabs (m - 3 / 8) <= 1 / 1000).
  { replace (3 / 8) with (1 / 2 * 1 ^ 2 - 1 / 2 * (1 / 2) ^ 2) by field. eapply Rle_trans; [exact BM|]. lra. }
  assert (MI : 3 / 8 - 1 / 1000 <= m <= 3 / 8 + 1 / 1000) by (unfold Rabs in MB; destruct (Rcase_abs _) in MB; lra).
  destruct (C61_trapezoid (hurdle d (Fin (1 / 2))) (fun x => xmul (xpow (xsub x (Fin m)) 2) (m_pdf (hurdle d (Fin (1 / 2))) x))
    (fun x => (x - m) ^ 2) (fun y => 1 / 3 * (y - m) ^ 3) (1 / 2) 1 2 eq_refl SP ltac:(lra)) as (w & EW & BW).
  { intros x Hx. rewrite HP by lra. cbn [xsub xadd xneg]. rewrite xpow_fin. cbn [xmul]. fold (x - m). f_equal. ring. }
  { intros x y Hx Hy. replace ((x - m) ^ 2 - (y - m) ^ 2) with ((x + y - 2 * m) * (x - y)) by ring. rewrite Rabs_mult.
    apply Rmult_le_compat_r; [apply Rabs_pos|]. apply Rabs_le. lra. }
  { intros x _. apply D3. }
  rewrite EW in E. injection E as <-.
  assert (W1 : w <= 1 / 10).
  { apply Rabs_le_inv in BW || (unfold Rabs in BW; destruct (Rcase_abs _) in BW). 
    all: assert (1 / 3 * (1 - m) ^ 3 - 1 / 3 * (1 / 2 - m) ^ 3 <= 9 / 100) by nra; lra. }
  apply Rabs_le_inv in B || (unfold Rabs in B; destruct (Rcase_abs _) in B). all: lra.
Qed.

(* ------------------------------------------------------------------ examples *)
Lemma die6_truncatable : truncatable (die 6) (die_F 6) (Fin (IZR 2)) (Fin (IZR 5)).
Proof.
  split; [apply die_lawful; lia|]. split; [left; exists 2%Z; reflexivity|]. split; [left; exists 5%Z; reflexivity|]. cbn [kind_of die].
  unfold between, below. replace (xsub (Fin (IZR 2)) (Fin 1)) with (Fin (IZR 1)) by (cbn; f_equal; ring). rewrite !die_F_IZR by lia. cbn. lra.
Qed.
Lemma die6_conditional g : expect (conditional Discrete (die_F 6) (Fin (IZR 2)) (Fin (IZR 5))) 2 5 g = (g 2 + g 3 + g 4 + g 5) / 4 .
Proof.
  destruct die6_truncatable as (L & _ & _ & B). cbn [kind_of die] in B. unfold expect. change (arange 2 (5 + 1)) with [2; 3; 4; 5]%Z. cbn [map fold_right].
  rewrite !(conditional_pmf (die 6)) by (auto; lia). unfold between, below. replace (xsub (Fin (IZR 2)) (Fin 1)) with (Fin (IZR 1)) by (cbn; f_equal; ring).
  rewrite <- !minus_IZR, !die_F_IZR by lia. cbn -[Rdiv]. field.
Qed.
(** A die truncated to 2..5: mean 7/2, variance 5/4, symmetric. *)
Example C61_truncated_die : let y := truncated (die 6) (Fin (IZR 2)) (Fin (IZR 5)) in
  grid_mean_of y = Ok (Fin (7 / 2)) /\ grid_var_of y = Ok (Fin (5 / 4)) /\ t_skewness y = Ok (Fin 0) /\
  (exists k, mode_of y = Ok k /\ (2 <= k <= 5)%Z).
Proof.
  intro y. destruct (C61_truncated (die 6) (die_F 6) 1 6 2 5 die6_truncatable eq_refl eq_refl ltac:(lia) ltac:(lia) ltac:(lia) ltac:(lia)) as (M & V & R).
  fold y in M, V, R. assert (EM : law_mean (conditional Discrete (die_F 6) (Fin (IZR 2)) (Fin (IZR 5))) 2 5 = 7 / 2) by (unfold law_mean; rewrite die6_conditional; field).
  assert (EV : law_var (conditional Discrete (die_F 6) (Fin (IZR 2)) (Fin (IZR 5))) 2 5 = 5 / 4) by (unfold law_var; rewrite EM, die6_conditional; field).
  destruct R as [R _]; [rewrite EV; lra|]. rewrite M, V, EM, EV, R. split; [reflexivity|]. split; [reflexivity|]. split.
  - do 2 f_equal. unfold law_moment. rewrite EM, EV, die6_conditional. field. apply Rgt_not_eq, sqrt_lt_R0. lra.
  - destruct (C61_mode y _ 2 5 (truncated_tabulates (die 6) (die_F 6) 1 6 2 5 die6_truncatable eq_refl eq_refl ltac:(lia) ltac:(lia) ltac:(lia)) ltac:(lia)) as (k & E & I & _).
    + intro z. pose proof (C12_truncated_is_conditional _ _ _ _ die6_truncatable) as LT. apply (F_range LT). discriminate.
    + exists k. auto.
Qed.
(** The entropy of a fair die with n >= 2 faces (up to 200) is log n. *)
Example C61_entropy_die : forall n, (1 < n <= 200)%Z -> grid_entropy (die n) = Ok (Fin (ln (IZR n))).
Proof.
  intros n Hn. assert (2 <= IZR n <= 200) by (split; apply IZR_le; lia).
  assert (Q : 1 / 200 <= / IZR n <= 1 / 2). { split; [replace (1 / 200) with (/ 200) by field|replace (1 / 2) with (/ 2) by field]; apply Rinv_le_contravar; lra. }
  assert (I : IZR n * / IZR n = 1) by (field; lra).
  assert (FZ : forall z, (0 <= z <= n)%Z -> die_F n (Fin (IZR z)) = IZR z * / IZR n).
  { intros z Hz. rewrite die_F_IZR by lia. replace (Z.max 0 (Z.min z n)) with z by lia. reflexivity. }
  assert (PZ : forall z, (1 <= z <= n)%Z -> die_F n (Fin (IZR z)) - die_F n (Fin (IZR z - 1)) = / IZR n).
  { intros z Hz. rewrite <- minus_IZR, !FZ, minus_IZR by lia. ring. }
  destruct (C61_entropy (die n) (die_F n) 1 n (die_lawful n ltac:(lia)) eq_refl ltac:(lia)) as [_ E].
  - rewrite <- minus_IZR, FZ by lia. cbn. lra.
  - rewrite FZ by lia. lra.
  - rewrite <- minus_IZR, FZ, minus_IZR by lia. nra.
  - rewrite FZ by lia. lra.
  - rewrite E; [|intros z Hz; specialize (PZ z ltac:(lia)); lra]. do 2 f_equal. unfold law_entropy.
    fold (rsum (map (fun z => plogp (die_F n (Fin (IZR z)) - die_F n (Fin (IZR z - 1)))) (arange 1 (n + 1)))).
    rewrite (rsum_ext _ (fun z => - ln (IZR n) * (die_F n (Fin (IZR z)) - die_F n (Fin (IZR z - 1))))).
    + rewrite rsum_scale, telescope by lia. destruct (die_values n ltac:(lia)) as [V0 V1]. rewrite V0, plus_IZR.
      replace (IZR n + 1 - 1) with (IZR n) by ring. rewrite V1. ring.
    + intros z Hz. apply arange_in in Hz. rewrite PZ by lia. unfold plogp. rewrite Reqb_false by lra. rewrite ln_Rinv by lra. ring.
Qed.
(** A base on {0, ..., 4} (here with no mass at 0) behind a hurdle. *)
Definition die0 : methods := {| kind_of := Discrete; m_cdf := m_cdf (die 4); m_ppf := m_ppf (die 4); m_pdf := m_pdf (die 4);
  m_logpdf := m_logpdf (die 4); m_supp := (Fin 0, Fin (IZR 4)) |}.
Example C61_hurdle_die : grid_mean_of (hurdle die0 (Fin (1 / 2))) = Ok (Fin (5 / 4)).
Proof.
  assert (HD : hurdleable die0 (die_F 4) (1 / 2)).
  { destruct (die_hurdleable 4 (1 / 2) ltac:(lia) ltac:(lra)) as (L & R). split; [destruct L; constructor; auto|exact R]. }
  destruct (C61_hurdle die0 (die_F 4) (1 / 2) 4 HD eq_refl ltac:(lia) (proj2 (die_values 4 ltac:(lia))) eq_refl) as (M & _ & _). rewrite M. do 2 f_equal.
  unfold law_mean. destruct (C17_mean_and_variance die0 (die_F 4) (1 / 2) 4 4 _ HD eq_refl ltac:(lia) (proj2 (die_values 4 ltac:(lia))) ltac:(lia)
    (fun z => proj2 (proj2 (proj2 (proj2 (proj2 (hurdle_tabulates die0 (die_F 4) (1 / 2) 4 HD eq_refl ltac:(lia) (proj2 (die_values 4 ltac:(lia))) eq_refl))))) z)) as (_ & _ & E & _).
  rewrite E. unfold expect. change (arange 1 (4 + 1)) with [1; 2; 3; 4]%Z. cbn [map fold_right]. change (Fin 0) with (Fin (IZR 0)).
  rewrite <- !minus_IZR, !die_F_IZR by lia. cbn -[Rdiv]. field.
Qed.
(** A mixture of two copies of a die with four faces meets the hypotheses of C61_mixture. *)
Example C61_mixture_die : exists m, mixture_of [die_part 1; die_part 3] m /\ mix_std m = Ok (Fin (sqrt (law_var (mixture_law [die_part 1; die_part 3]) 1 4))).
Proof.
  assert (MX : mixable Discrete [die_part 1; die_part 3]).
  { split; [|unfold Rsum; cbn; lra]. intros p [<-|[<-|[]]]; cbn -[die die_F]; (split; [apply die_lawful; lia|]); repeat split; try (cbn; discriminate); lra. }
  destruct (make_mixture_ok _ _ MX) as (m & MO & _ & _ & _ & _ & _ & S1 & S2). exists m. split; [exact MO|].
  assert (S : mx_supp m = (Fin (IZR 1), Fin (IZR 4))).
  { destruct S1 as (p & Hp & E1). destruct S2 as (q & Hq & E2). destruct (mx_supp m) as [lo up]. cbn [fst snd] in E1, E2.
    destruct Hp as [<-|[<-|[]]]; destruct Hq as [<-|[<-|[]]]; cbn in E1, E2; subst; reflexivity. }
  assert (EX : forall g, expect (die_F 4) 1 4 g = (g 1 + g 2 + g 3 + g 4) / 4).
  { intro g. unfold expect. change (arange 1 (4 + 1)) with [1; 2; 3; 4]%Z. cbn [map fold_right].
    rewrite <- !minus_IZR, !die_F_IZR by lia. cbn -[Rdiv]. field. }
  apply (C61_mixture _ m 1 4 (fun _ => NaN) MX MO ltac:(lia) ltac:(lia) S).
  intros p Hp. assert (p_F p = die_F 4 /\ comp_mean (p_comp p) = Fin (5 / 2) /\ comp_var (p_comp p) = Fin (5 / 4)) as (-> & -> & ->)
    by (destruct Hp as [<-|[<-|[]]]; cbn; auto).
  split; [apply die_values; lia|]. rewrite !EX. split; f_equal; field.
Qed.

Print Assumptions C61_moments.
Print Assumptions C61_mixture.
Print Assumptions C61_censored_moments.
Print Assumptions C61_censored_entropy_continuous.
Print Assumptions C61_censored_entropy_open.
Print Assumptions C61_trapezoid.
Print Assumptions C61_censored_entropy.
