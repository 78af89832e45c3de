(** C16, C18: the moments of censored distributions and of mixtures of any kind. *)
From Coq Require Import List Bool ZArith Reals Lra Lia.
From Verif Require Import Base RLists XR SpecialModel LawModel LawSpec LawProofs LawProps ModModel ModSpec MixModel MixSpec MixProps ExpectSpec.
Import ListNotations.
Open Scope R_scope.

Lemma proper_number k x : proper_bound k x -> x <> NaN.
Proof. intros P ->. destruct k; cbn in P; [destruct P as [[z Z]|[Z|Z]]; discriminate Z|apply P; reflexivity]. Qed.

Section any.
  Variables (k : kind) (F : xr -> R) (L : (R -> R) -> Prop) (E : (R -> R) -> R).
  Hypothesis X : expectation k F L E.

  Lemma ex_ext g h : L g -> (forall x, g x = h x) -> L h /\ E h = E g.
  Proof. intros G Q. apply (e_ext _ _ _ _ X); assumption. Qed.
  Lemma ex_scal a g : L g -> L (fun x => a * g x) /\ E (fun x => a * g x) = a * E g.
  Proof using X.
    intro G. destruct (e_lin _ _ _ _ X a 0 g g G G) as [A B].
    destruct (ex_ext _ (fun x => a * g x) A) as [C D]; [intro; ring|]. split; [exact C|]. rewrite D, B. ring.
  Qed.
  Lemma ex_plus g h : L g -> L h -> L (fun x => g x + h x) /\ E (fun x => g x + h x) = E g + E h.
  Proof using X.
    intros G H. destruct (e_lin _ _ _ _ X 1 1 g h G H) as [A B].
    destruct (ex_ext _ (fun x => g x + h x) A) as [C D]; [intro; ring|]. split; [exact C|]. rewrite D, B. ring.
  Qed.
  Lemma ex_zero : L (fun _ => 0) /\ E (fun _ => 0) = 0.
  Proof using X.
    destruct (e_one _ _ _ _ X) as [A B]. destruct (ex_scal 0 _ A) as [C D].
    destruct (ex_ext _ (fun _ => 0) C) as [C' D']; [intro; ring|]. split; [exact C'|]. rewrite D', D. ring.
  Qed.

  (** The three parts of the clipped variable. *)
  Definition low_part (l : xr) (g : R -> R) : R := match l with Fin a => g a * below k F l | _ => 0 end.
  Definition up_part (u : xr) (g : R -> R) : R := match u with Fin b => g b * (1 - F u) | _ => 0 end.
  Lemma low_indicator l g : proper_bound k l -> exists h, L h /\ E h = low_part l g /\
    forall x, h x = match l with Fin a => g a * indicator (Rltb x a) | _ => 0 end.
  Proof using X.
    intro P. pose proof ex_zero as Z.
    destruct l as [a| | |]; try (exists (fun _ => 0); split; [apply Z|]; split; [apply Z|reflexivity]).
    destruct (e_lt _ _ _ _ X a P) as [A B]. destruct (ex_scal (g a) _ A) as [C D].
    eexists. split; [exact C|]. split; [rewrite D, B; reflexivity|reflexivity].
  Qed.
  Lemma up_indicator u g : exists h, L h /\ E h = up_part u g /\
    forall x, h x = match u with Fin b => g b * (1 - indicator (Rleb x b)) | _ => 0 end.
  Proof using X.
    pose proof ex_zero as Z.
    destruct u as [b| | |]; try (exists (fun _ => 0); split; [apply Z|]; split; [apply Z|reflexivity]).
    destruct (e_le _ _ _ _ X b) as [A B]. destruct (e_one _ _ _ _ X) as [O1 O2].
    destruct (e_lin _ _ _ _ X (g b) (- g b) _ _ O1 A) as [C D].
    eexists. split; [exact C|]. split; [rewrite D, B, O2; cbn; ring|intro x; cbn; ring].
  Qed.
  Lemma expect_clip l u g : proper_bound k l -> proper_bound k u -> l <> PInf -> u <> NInf -> xlt l u -> L (fun x => g x * inside l u x) ->
    L (fun x => g (clip l u x)) /\
    E (fun x => g (clip l u x)) = low_part l g + E (fun x => g x * inside l u x) + up_part u g.
  Proof using X.
    intros Pl Pu Nl Nu O G. destruct (low_indicator l g Pl) as (h1 & H1 & E1 & Q1). destruct (up_indicator u g) as (h2 & H2 & E2 & Q2).
    destruct (ex_plus _ _ H1 G) as [A B]. destruct (ex_plus _ _ A H2) as [C D].
    rewrite <- E1, <- E2, <- B, <- D. apply ex_ext; [exact C|]. intro x. rewrite Q1, Q2.
    apply proper_number in Pl. apply proper_number in Pu.
    destruct l as [a| | |]; try congruence; destruct u as [b| | |]; try congruence; unfold inside, clip, indicator, xleb; cbn in *.
    - unfold xlt in O; cbn in O. destruct (Rltb_spec a b); [|discriminate O].
      destruct (Rltb_spec x a); destruct (Rltb_spec a x); destruct (Reqb_spec a x); destruct (Rltb_spec b x); destruct (Rltb_spec x b);
      destruct (Reqb_spec x b); destruct (Rleb_spec x b); cbn; try lra; subst; try lra.
    - destruct (Rltb_spec x a); destruct (Rltb_spec a x); destruct (Reqb_spec a x); cbn; try lra.
    - destruct (Rltb_spec b x); destruct (Rltb_spec x b); destruct (Reqb_spec x b); destruct (Rleb_spec x b); cbn; try lra.
    - cbn. lra.
  Qed.
  Lemma in_law l u : proper_bound k l -> proper_bound k u -> l <> PInf -> u <> NInf -> xlt l u -> F NInf = 0 -> F PInf = 1 ->
    L (inside l u) /\ E (inside l u) = between k F l u.
  Proof using X.
    intros Pl Pu Nl Nu O Z1 Z2. destruct (low_indicator l (fun _ => -1) Pl) as (h1 & H1 & E1 & Q1). destruct (up_indicator u (fun _ => -1)) as (h2 & H2 & E2 & Q2).
    destruct (e_one _ _ _ _ X) as [O1 O2]. destruct (ex_plus _ _ H1 O1) as [A B]. destruct (ex_plus _ _ A H2) as [C D].
    assert (Q : between k F l u = E (fun x => h1 x + 1 + h2 x)).
    { rewrite D, B, E1, E2, O2. unfold low_part, up_part, between. apply proper_number in Pl. apply proper_number in Pu.
      assert (Z3 : below k F NInf = 0) by (unfold below; destruct k; exact Z1).
      destruct l; try congruence; destruct u; try congruence; rewrite ?Z2, ?Z3; ring. }
    rewrite Q. apply ex_ext; [exact C|]. intro x. rewrite Q1, Q2.
    apply proper_number in Pl. apply proper_number in Pu.
    destruct l as [a| | |]; try congruence; destruct u as [b| | |]; try congruence; unfold inside, clip, indicator, xleb; cbn in *.
    - unfold xlt in O; cbn in O. destruct (Rltb_spec a b); [|discriminate O].
      destruct (Rltb_spec x a); destruct (Rltb_spec a x); destruct (Reqb_spec a x); destruct (Rltb_spec b x); destruct (Rltb_spec x b);
      destruct (Reqb_spec x b); destruct (Rleb_spec x b); cbn; try lra; subst; try lra.
    - destruct (Rltb_spec x a); destruct (Rltb_spec a x); destruct (Reqb_spec a x); cbn; try lra.
    - destruct (Rltb_spec b x); destruct (Rltb_spec x b); destruct (Reqb_spec x b); destruct (Rleb_spec x b); cbn; try lra.
    - cbn. lra.
  Qed.
End any.

(** Censored distributions of any kind, with finite or infinite bounds: if the truncated distribution reports the mean and the
    variance of X given that it lies between the bounds, the censored one reports the mean and the variance of X clipped to the
    bounds. *)
Theorem C16_any_distribution : forall d F L E l u m v, lawful d F -> expectation (kind_of d) F L E ->
  proper_bound (kind_of d) l -> proper_bound (kind_of d) u -> l <> PInf -> u <> NInf -> xlt l u ->
  given_inside (kind_of d) F L E l u m v ->
  let mu := E (clip l u) in
  L (clip l u) /\ c_mean d l u (Fin m) = Fin mu /\
  L (fun x => (clip l u x - mu) ^ 2) /\ c_var d l u (Fin m) (Fin v) = Fin (E (fun x => (clip l u x - mu) ^ 2)).
Proof.
  intros d F L E l u m v W X Pl Pu Nl Nu O (G1 & G2 & M & V) mu.
  pose proof (proper_number _ _ Pl) as Ml. pose proof (proper_number _ _ Pu) as Mu.
  destruct (expect_clip _ _ _ _ X l u (fun x => x) Pl Pu Nl Nu O G1) as [C1 C2].
  destruct (in_law _ _ _ _ X l u Pl Pu Nl Nu O (l_lo _ _ W) (l_hi _ _ W)) as [I1 I2].
  assert (B : m_cdf d u = Fin (F u)) by (apply (l_cdf _ _ W); exact Mu).
  assert (P : c_p_low d l = Fin (below (kind_of d) F l)).
  { unfold c_p_low, below. destruct (kind_of d); rewrite (l_cdf _ _ W); try reflexivity; try exact Ml. destruct l; try congruence; discriminate. }
  assert (Z : l = NInf -> below (kind_of d) F l = 0) by (intros ->; unfold below; destruct (kind_of d); exact (l_lo _ _ W)).
  assert (Z' : u = PInf -> F u = 1) by (intros ->; exact (l_hi _ _ W)).
  assert (MU : c_mean d l u (Fin m) = Fin mu).
  { unfold mu. replace (E (clip l u)) with (E (fun x => (fun x => x) (clip l u x))) by reflexivity. rewrite C2, M. unfold c_mean. rewrite P, B.
    unfold between, low_part, up_part. destruct l; try congruence; destruct u; try congruence; cbn; f_equal; rewrite ?Z, ?Z' by reflexivity; ring. }
  split; [exact C1|]. split; [exact MU|].
  assert (SQ : forall c, L (fun x => (x - c) ^ 2 * inside l u x) /\
    E (fun x => (x - c) ^ 2 * inside l u x) = E (fun x => x ^ 2 * inside l u x) - 2 * c * E (fun x => x * inside l u x) + c ^ 2 * E (inside l u)).
  { intro c. destruct (e_lin _ _ _ _ X 1 (- 2 * c) _ _ G2 G1) as [A1 A2]. destruct (e_lin _ _ _ _ X 1 (c ^ 2) _ _ A1 I1) as [A3 A4].
    destruct (ex_ext _ _ _ _ X _ (fun x => (x - c) ^ 2 * inside l u x) A3) as [A5 A6]; [intro; ring|].
    split; [exact A5|]. rewrite A6, A4, A2. ring. }
  destruct (SQ mu) as [S1 S2].
  destruct (expect_clip _ _ _ _ X l u (fun x => (x - mu) ^ 2) Pl Pu Nl Nu O S1) as [D1 D2].
  split; [exact D1|]. rewrite D2, S2. destruct (SQ m) as [_ S3]. rewrite V in S3. rewrite M, I2 in S3. rewrite M, I2.
  assert (Q2 : E (fun x => x ^ 2 * inside l u x) = v * between (kind_of d) F l u + m ^ 2 * between (kind_of d) F l u) by lra.
  assert (I3 : xpow (xsub NInf (Fin mu)) 2 = PInf).
  { cbn. unfold inf_of_sign. rewrite (Rltb_false 0 (-1 * 1)), (Rltb_true (-1 * 1) 0) by lra. cbn. rewrite Rltb_true by lra. reflexivity. }
  assert (I4 : xpow (xsub PInf (Fin mu)) 2 = PInf).
  { cbn. unfold inf_of_sign. rewrite (Rltb_true 0 (1 * 1)) by lra. cbn. rewrite Rltb_true by lra. reflexivity. }
  rewrite Q2. unfold c_var. rewrite MU, P, B. unfold between, low_part, up_part.
  destruct l; try congruence; destruct u; try congruence; rewrite ?I3, ?I4; cbn; f_equal; rewrite ?Z, ?Z' by reflexivity; ring.
Qed.

(** Mixtures of components of any kind: if each component reports its own mean and variance, the mixture reports those of the
    variable that is drawn from a component chosen according to the weights. *)
Theorem C18_any_distribution : forall k ps m (L : part -> (R -> R) -> Prop) (E : part -> (R -> R) -> R), mixable k ps -> mixture_of ps m ->
  (forall p, In p ps -> expectation k (p_F p) (L p) (E p) /\ L p (fun x => x) /\ L p (fun x => x ^ 2) /\
     comp_mean (p_comp p) = Fin (E p (fun x => x)) /\ comp_var (p_comp p) = Fin (E p (fun x => (x - E p (fun x => x)) ^ 2))) ->
  let mixed := fun g => average ps (fun p => E p g) in
  let mu := mixed (fun x => x) in
  expectation k (mixture_law ps) (fun g => forall p, In p ps -> L p g) mixed /\
  mix_mean m = Ok (Fin mu) /\ mix_var m = Ok (Fin (mixed (fun x => (x - mu) ^ 2))).
Proof.
  intros k ps m L E H M A mixed mu. assert (W : 0 < Rsum (map p_weight ps)) by apply H.
  assert (WP : forall p, In p ps -> 0 <= p_weight p) by (intros p I; apply (proj1 H p I)).
  split; [split|].
  - intros g h Q G. split.
    + intros p I. apply (e_ext _ _ _ _ (proj1 (A p I)) g h Q (G p I)).
    + apply average_ext. intros p I. apply (e_ext _ _ _ _ (proj1 (A p I)) g h Q (G p I)).
  - intros a b g h G1 G2. split.
    + intros p I. apply (e_lin _ _ _ _ (proj1 (A p I)) a b g h (G1 p I) (G2 p I)).
    + unfold mixed. rewrite <- !average_scal, <- average_plus. apply average_ext.
      intros p I. apply (e_lin _ _ _ _ (proj1 (A p I)) a b g h (G1 p I) (G2 p I)).
  - intros g G Q. unfold mixed. eapply Rle_trans; [right; symmetry; exact (average_const H 0)|]. apply (average_le H). intros p I. apply (e_pos _ _ _ _ (proj1 (A p I)) g (G p I) Q).
  - split; [intros p I; apply (e_one _ _ _ _ (proj1 (A p I)))|]. unfold mixed. etransitivity; [|exact (average_const H 1)]. apply average_ext.
    intros p I. apply (e_one _ _ _ _ (proj1 (A p I))).
  - intro t. split; [intros p I; apply (e_le _ _ _ _ (proj1 (A p I)))|]. unfold mixed, mixture_law. apply average_ext.
    intros p I. apply (e_le _ _ _ _ (proj1 (A p I))).
  - intros t P. split; [intros p I; apply (e_lt _ _ _ _ (proj1 (A p I)) t P)|]. unfold mixed, below, mixture_law.
    destruct k; apply average_ext; intros p I; apply (e_lt _ _ _ _ (proj1 (A p I)) t P).
  - destruct (C18_mean_and_variance k ps m (fun p => E p (fun x => x)) (fun p => E p (fun x => (x - E p (fun x => x)) ^ 2)) H M) as (B1 & B2 & _).
    { intros p I. split; apply A; exact I. }
    split; [exact B1|]. rewrite B2. do 2 f_equal. unfold mixed. fold mu. rewrite <- average_plus. apply average_ext. intros p I.
    destruct (A p I) as (X & G1 & G2 & _). set (e := E p (fun x => x)). change (average ps (fun p0 => E p0 (fun x => x))) with mu.
    assert (SQ : forall c, E p (fun x => (x - c) ^ 2) = E p (fun x => x ^ 2) - 2 * c * e + c ^ 2).
    { intro c. destruct (e_one _ _ _ _ X) as [O1 O2]. destruct (e_lin _ _ _ _ X 1 (- 2 * c) _ _ G2 G1) as [C1 C2].
      destruct (e_lin _ _ _ _ X 1 (c ^ 2) _ _ C1 O1) as [C3 C4].
      destruct (ex_ext _ _ _ _ X _ (fun x => (x - c) ^ 2) C3) as [_ C6]; [intro; ring|]. rewrite C6, C4, C2, O2. unfold e. ring. }
    rewrite !SQ. ring.
Qed.


(* ------------------------------------------------------------------ a concrete continuous case *)
From Coquelicot Require Import Rcomplements Hierarchy Continuity Derive AutoDerive RInt RInt_analysis.
Open Scope R_scope.

Lemma step_integral a b c t y z v : v = y * (t - a) + z * (b - t) -> a <= t <= b -> (forall x, a < x < t -> c x = y) ->
  (forall x, t < x < b -> c x = z) -> is_RInt c a b v.
Proof.
  intros -> T H1 H2. apply (is_RInt_Chasles c a t b).
  - apply is_RInt_ext with (fun _ => y).
    + intros x. rewrite Rmin_left, Rmax_right by lra. intro X. symmetry. apply H1. exact X.
    + replace (y * (t - a)) with (scal (t - a) y) by (unfold scal; cbn; unfold mult; cbn; ring). apply @is_RInt_const.
  - apply is_RInt_ext with (fun _ => z).
    + intros x. rewrite Rmin_left, Rmax_right by lra. intro X. symmetry. apply H2. exact X.
    + replace (z * (b - t)) with (scal (b - t) z) by (unfold scal; cbn; unfold mult; cbn; ring). apply @is_RInt_const.
Qed.

(** The integral over the unit interval is the expectation of the uniform distribution. *)
Lemma uniform_expectation : expectation LawModel.Continuous unif_F (fun g => ex_RInt g 0 1) (fun g => RInt g 0 1).
Proof.
  assert (ST : forall c t, (forall x, x < t -> c x = 1) -> (forall x, t < x -> c x = 0) -> ex_RInt c 0 1 /\ RInt c 0 1 = unif_F (Fin t)).
  { intros c t H1 H2.
    assert (I : is_RInt c 0 1 (unif_F (Fin t))).
    { cbn [unif_F]. destruct (clip01_cases t) as [[T ->]|[[T ->]|[T ->]]].
      - apply (step_integral 0 1 c 0 0 0); [lra|lra|intros; lra|intros; apply H2; lra].
      - apply (step_integral 0 1 c t 1 0); [lra|lra|intros; apply H1; lra|intros; apply H2; lra].
      - apply (step_integral 0 1 c 1 1 0); [lra|lra|intros; apply H1; lra|intros; lra]. }
    split; [eexists; exact I|]. apply is_RInt_unique. exact I. }
  split.
  - intros g h Q G. split; [apply (ex_RInt_ext g); auto|]. apply RInt_ext. intros. symmetry. apply Q.
  - intros a b g h G H.
    assert (I : is_RInt (fun x => a * g x + b * h x) 0 1 (a * RInt g 0 1 + b * RInt h 0 1)).
    { apply (is_RInt_plus (fun x => a * g x) (fun x => b * h x)); apply (is_RInt_scal (V := R_NormedModule)); apply (RInt_correct (V := R_CompleteNormedModule)); assumption. }
    split; [eexists; exact I|apply is_RInt_unique; exact I].
  - intros g G P. apply RInt_ge_0; [lra|exact G|]. intros. apply P.
  - split; [apply ex_RInt_const|]. rewrite RInt_const. unfold scal. cbn. unfold mult. cbn. ring.
  - intro t. apply ST; intros x X; unfold indicator; destruct (Rleb_spec x t); lra.
  - intros t _. apply ST; intros x X; unfold indicator; destruct (Rltb_spec x t); lra.
Qed.

Lemma part_integral (g G : R -> R) v : (forall x, is_derive G x (g x)) -> (forall x, ex_derive g x) -> v = G 1 - G (1 / 4) ->
  is_RInt (fun x => g x * inside (Fin (1 / 4)) (Fin 1) x) 0 1 v.
Proof.
  intros D C ->. replace (G 1 - G (1 / 4)) with (plus 0 (G 1 - G (1 / 4))) by (unfold plus; cbn; ring).
  apply (is_RInt_Chasles (V := R_NormedModule) _ 0 (1 / 4) 1).
  - apply (step_integral 0 (1 / 4) _ (1 / 4) 0 0); [lra|lra| |intros; lra].
    intros x X. unfold inside, indicator, xleb. cbn. rewrite Rltb_false, Reqb_false by lra. cbn. ring.
  - apply (is_RInt_ext g).
    + intros x. rewrite Rmin_left, Rmax_right by lra. intro X. unfold inside, indicator, xleb. cbn. rewrite !Rltb_true by lra. cbn. ring.
    + apply (is_RInt_derive G g); intros x _; [apply D|]. apply (ex_derive_continuous g). apply C.
Qed.
(** A uniform variable on the unit interval censored below 1/4: given that it lies above, its mean is 5/8 and its variance 3/64,
    and the mean of the censored distribution is 17/32. *)
Example C16_any_distribution_applies :
  let L := fun g => ex_RInt g 0 1 in let E := fun g => RInt g 0 1 in
  lawful unif unif_F /\ expectation LawModel.Continuous unif_F L E /\ xlt (Fin (1 / 4)) (Fin 1) /\
  given_inside LawModel.Continuous unif_F L E (Fin (1 / 4)) (Fin 1) (5 / 8) (3 / 64) /\
  c_mean unif (Fin (1 / 4)) (Fin 1) (Fin (5 / 8)) = Fin (17 / 32) /\ E (clip (Fin (1 / 4)) (Fin 1)) = 17 / 32.
Proof.
  cbn zeta. assert (B : between LawModel.Continuous unif_F (Fin (1 / 4)) (Fin 1) = 3 / 4).
  { unfold between, below, unif_F, clip01. rewrite (Rmin_left 1 1), (Rmin_left (1 / 4) 1), !Rmax_right by lra. lra. }
  assert (I1 : is_RInt (fun x => x * inside (Fin (1 / 4)) (Fin 1) x) 0 1 (15 / 32)).
  { apply (part_integral (fun x => x) (fun x => x ^ 2 / 2)); [intro x; auto_derive; [exact I|field]|intro x; auto_derive; exact I|lra]. }
  assert (I2 : is_RInt (fun x => x ^ 2 * inside (Fin (1 / 4)) (Fin 1) x) 0 1 (21 / 64)).
  { apply (part_integral (fun x => x ^ 2) (fun x => x ^ 3 / 3)); [intro x; auto_derive; [exact I|field]|intro x; auto_derive; exact I|lra]. }
  assert (I3 : is_RInt (fun x => (x - 5 / 8) ^ 2 * inside (Fin (1 / 4)) (Fin 1) x) 0 1 (9 / 256)).
  { apply (part_integral (fun x => (x - 5 / 8) ^ 2) (fun x => (x - 5 / 8) ^ 3 / 3)); [intro x; auto_derive; [exact I|field]|intro x; auto_derive; exact I|lra]. }
  assert (G : given_inside LawModel.Continuous unif_F (fun g => ex_RInt g 0 1) (fun g => RInt g 0 1) (Fin (1 / 4)) (Fin 1) (5 / 8) (3 / 64)).
  { split; [eexists; exact I1|]. split; [eexists; exact I2|]. rewrite B. split.
    - rewrite (is_RInt_unique _ _ _ _ I1). lra.
    - rewrite (is_RInt_unique _ _ _ _ I3). lra. }
  assert (O : xlt (Fin (1 / 4)) (Fin 1)) by (unfold xlt; cbn; apply Rltb_true; lra).
  assert (M : c_mean unif (Fin (1 / 4)) (Fin 1) (Fin (5 / 8)) = Fin (17 / 32)).
  { unfold c_mean, c_p_low. cbn. unfold clip01. rewrite (Rmin_left 1 1), (Rmin_left (1 / 4) 1), !Rmax_right by lra. f_equal. lra. }
  split; [exact unif_lawful|]. split; [exact uniform_expectation|]. split; [exact O|]. split; [exact G|]. split; [exact M|].
  destruct (C16_any_distribution unif unif_F _ _ (Fin (1 / 4)) (Fin 1) (5 / 8) (3 / 64) unif_lawful uniform_expectation) as (_ & Q & _); try exact G; try exact O; try discriminate.
  rewrite M in Q. injection Q as Q. symmetry. exact Q.
Qed.

Print Assumptions C16_any_distribution.
Print Assumptions C18_any_distribution.
Print Assumptions C16_any_distribution_applies.
