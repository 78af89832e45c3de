(** Property theorems for the multivariate families: C46. *)
From Coq Require Import List Bool String Reals Lra Lia Psatz.
From Verif Require Import Base RLists XR LawModel LawSpec LawProofs LawProps OptModel MvModel.
Import ListNotations.
Open Scope R_scope.

(* ---------------- specification ---------------- *)
(** What is known about numpy's inverse: inverting twice gives the matrix back. *)
Definition inverts {M} (inv : M -> res M) : Prop := forall a b, inv a = Ok b -> inv b = Ok a.

(* ---------------- theorems ---------------- *)
(** Giving both matrices is an error, and the object is not touched. *)
Theorem C46_both_rejected : forall M (inv : M -> res M) o mu cov tau,
  mv_parametrization inv o mu (Some cov) (Some tau) = (o, Err ValueError).
Proof. reflexivity. Qed.

(** A mean and a covariance: the object is frozen with them, they are what it reports, and tau is the inverse. *)
Theorem C46_from_cov : forall M (inv : M -> res M) o mu cov tau, inv cov = Ok tau ->
  exists o', mv_parametrization inv o (Some mu) (Some cov) None = (o', Ok tt) /\
    mv_names o' = NameCov /\ mv_params o' = Some (mu, cov) /\ mv_rv o' = Some (mu, cov) /\
    mv_mu o' = Some mu /\ mv_cov o' = Some cov /\ mv_tau o' = Some tau /\ mv_mode o' = Some mu.
Proof.
  intros M inv o mu cov tau E. unfold mv_parametrization, mv_update. rewrite E. eexists. split; [reflexivity|].
  repeat split.
Qed.
(** A mean and a precision: the reported parameter is the precision, and the distribution uses its inverse. *)
Theorem C46_from_tau : forall M (inv : M -> res M) o mu tau cov, inverts inv -> inv tau = Ok cov ->
  exists o', mv_parametrization inv o (Some mu) None (Some tau) = (o', Ok tt) /\
    mv_names o' = NameTau /\ mv_params o' = Some (mu, tau) /\ mv_rv o' = Some (mu, cov) /\
    mv_mu o' = Some mu /\ mv_cov o' = Some cov /\ mv_tau o' = Some tau /\ mv_mode o' = Some mu.
Proof.
  intros M inv o mu tau cov I E. unfold mv_parametrization, mv_update. rewrite E, (I _ _ E). eexists. split; [reflexivity|].
  repeat split.
Qed.
(** The two ways of describing the same distribution give the same distribution. *)
Theorem C46_same_distribution : forall M (inv : M -> res M) o1 o2 mu cov tau, inverts inv -> inv tau = Ok cov ->
  mv_rv (fst (mv_parametrization inv o1 (Some mu) (Some cov) None)) =
  mv_rv (fst (mv_parametrization inv o2 (Some mu) None (Some tau))).
Proof.
  intros M inv o1 o2 mu cov tau I E. destruct (C46_from_cov M inv o1 mu cov tau (I _ _ E)) as (a & -> & _ & _ & A & _).
  destruct (C46_from_tau M inv o2 mu tau cov I E) as (b & -> & _ & _ & B & _). cbn [fst]. congruence.
Qed.
(** A new object is frozen exactly when a mean and one of the two matrices were given. *)
Theorem C46_frozen_iff : forall M (inv : M -> res M) mu cov tau o, inverts inv ->
  mv_new inv mu cov tau = (o, Ok tt) ->
  (mv_is_frozen o = true <-> exists m, mu = Some m /\ ((exists c, cov = Some c /\ tau = None) \/ (exists t, tau = Some t /\ cov = None))).
Proof.
  intros M inv mu cov tau o I E. unfold mv_new, mv_parametrization, mv_update in E.
  destruct cov as [c|], tau as [t|]; try discriminate.
  - destruct mu as [m|]; [|injection E as <-; cbn; split; [discriminate|intros (x & X & _); discriminate]].
    destruct (inv c); [|discriminate]. injection E as <-. cbn. split; [|reflexivity]. intros _. exists m. split; [reflexivity|].
    left. exists c. auto.
  - destruct (inv t) as [c|] eqn:Et; [|discriminate].
    destruct mu as [m|]; [|injection E as <-; cbn; split; [discriminate|intros (x & X & _); discriminate]].
    destruct (inv c); [|discriminate]. injection E as <-. cbn. split; [|reflexivity]. intros _. exists m. split; [reflexivity|].
    right. exists t. auto.
  - assert (F : mv_is_frozen o = false) by (destruct mu; injection E as <-; reflexivity). rewrite F.
    split; [discriminate|]. intros (x & _ & [(c & X & _)|(t & X & _)]); discriminate.
Qed.

(** One-by-one matrices. *)
Definition inv1 (x : R) : res R := if Reqb x 0 then Err ValueError else Ok (/ x).
Lemma inv1_inverts : inverts inv1.
Proof.
  intros a b E. unfold inv1 in *. destruct (Reqb_spec a 0) as [|N]; [discriminate|]. injection E as <-.
  rewrite Reqb_false by (apply Rinv_neq_0_compat; exact N). rewrite Rinv_inv. reflexivity.
Qed.
Example C46_applies : exists o, mv_new inv1 (Some [3]) None (Some 4) = (o, Ok tt) /\ mv_params o = Some ([3], 4) /\
  mv_rv o = Some ([3], / 4).
Proof.
  destruct (C46_from_tau R inv1 mv_blank [3] 4 (/ 4) inv1_inverts) as (o & E & _ & P & V & _).
  - unfold inv1. rewrite Reqb_false by lra. reflexivity.
  - exists o. auto.
Qed.

(** Though the distribution is built with allow_singular=True, a singular covariance is an error. *)
Theorem C46_singular_refuted : forall M (inv : M -> res M) mu cov e, inv cov = Err e ->
  exists o, mv_new inv (Some mu) (Some cov) None = (o, Err e) /\ mv_is_frozen o = false.
Proof.
  intros M inv mu cov e E. unfold mv_new, mv_parametrization, mv_update. rewrite E. eexists. split; reflexivity.
Qed.
Example C46_singular_applies : inv1 0 = Err ValueError.
Proof. unfold inv1. rewrite Reqb_refl. reflexivity. Qed.
(** A distribution made from a mean and a covariance or precision reports their diagonal as variance and its roots in the summary. *)
Theorem C46_variance : forall M (inv : M -> res M) (diag : M -> list R) o o' mu cov tau c, inverts inv ->
  mv_parametrization inv o (Some mu) cov tau = (o', Ok tt) -> cov = Some c \/ (exists t, tau = Some t /\ inv t = Ok c) ->
  mv_rv o' = Some (mu, c) /\ mv_var diag o' = Ok (diag c) /\ mv_summary diag o' = Ok (mu, map sqrt (diag c)).
Proof.
  intros M inv diag o o' mu cov tau c I E H.
  assert (X : mv_rv o' = Some (mu, c) /\ mv_cov o' = Some c).
  { destruct H as [->|(t & -> & T)].
    - destruct tau as [t|]; [discriminate|]. destruct (inv c) as [x|e] eqn:Ec.
      + destruct (C46_from_cov M inv o mu c x Ec) as (b & B & _ & _ & V & _ & C & _). rewrite B in E. injection E as <-. auto.
      + unfold mv_parametrization, mv_update in E. rewrite Ec in E. discriminate.
    - destruct cov as [k|]; [discriminate|].
      destruct (C46_from_tau M inv o mu t c I T) as (b & B & _ & _ & V & _ & C & _). rewrite B in E. injection E as <-. auto. }
  destruct X as [X Y]. unfold mv_summary, mv_var. rewrite X, Y. auto.
Qed.
(** mean() never returns. *)
Theorem C46_mean_refuted : forall M (o : mvnormal M) mu cov, mv_rv o = Some (mu, cov) -> mv_mean o = Err TypeError.
Proof. intros M o mu cov E. unfold mv_mean. rewrite E. reflexivity. Qed.
(** A covariance that is refused changes the variance and the summary of a distribution that had one, though not its density; the
    mean in the summary is still the old one. *)
Theorem C46_rejected_variance_refuted : forall M (inv : M -> res M) (diag : M -> list R) o mu cov mu' bad e,
  mv_rv o = Some (mu, cov) -> inv bad = Err e ->
  exists o', mv_parametrization inv o (Some mu') (Some bad) None = (o', Err e) /\ mv_rv o' = Some (mu, cov) /\
    mv_var diag o' = Ok (diag bad) /\ mv_summary diag o' = Ok (mu, map sqrt (diag bad)).
Proof.
  intros M inv diag o mu cov mu' bad e E B. unfold mv_parametrization, mv_update. rewrite B. eexists. split; [reflexivity|].
  unfold mv_summary, mv_var. cbn. rewrite E. auto.
Qed.
(** Before the first parameters are given mean() and var() are AttributeErrors and summary() a ValueError. *)
Theorem C46_unset : forall M (diag : M -> list R) o, mv_rv o = None ->
  mv_mean o = Err AttributeError /\ mv_var diag o = Err AttributeError /\ mv_summary diag o = Err ValueError.
Proof. intros M diag o E. unfold mv_mean, mv_summary, mv_var. rewrite E. auto. Qed.
Example C46_unset_applies : mv_rv (@mv_blank R) = None.
Proof. reflexivity. Qed.
(** Taking the parameters away does not unfreeze the object: it goes on reporting and using the old ones, but has no variance. *)
Theorem C46_stale_refuted : forall M (inv : M -> res M) (diag : M -> list R) o, mv_is_frozen o = true ->
  exists o', mv_parametrization inv o None None None = (o', Ok tt) /\ mv_mu o' = None /\ mv_cov o' = None /\
    mv_is_frozen o' = true /\ mv_rv o' = mv_rv o /\ mv_params o' = mv_params o /\ mv_var diag o' = Err ValueError.
Proof.
  intros M inv diag o F. eexists. split; [reflexivity|]. repeat split; [exact F|]. unfold mv_var, mv_is_frozen in *. cbn.
  destruct (mv_rv o); [reflexivity|discriminate].
Qed.

(* ---------------- Dirichlet ---------------- *)
Lemma Rsum_minus_one l : Rsum (map (fun a => a - 1) l) = Rsum l - INR (List.length l).
Proof.
  induction l as [|a l IH]; [cbn; lra|]. cbn [map]. rewrite !Rsum_cons, IH. cbn [List.length]. rewrite S_INR. lra.
Qed.
Lemma all_gt_one l : l <> [] -> Forall (fun a => 1 < a) l -> 0 < Rsum l - INR (List.length l).
Proof.
  intros N F. destruct F as [|a l Fa F]; [contradiction|]. clear N. rewrite Rsum_cons. cbn [List.length]. rewrite S_INR.
  assert (0 <= Rsum l - INR (List.length l)); [|lra].
  rewrite <- Rsum_minus_one. apply Rsum_nonneg. apply Forall_forall. intros x I. apply in_map_iff in I.
  destruct I as (b & <- & I). rewrite Forall_forall in F. specialize (F b I). cbn in F. lra.
Qed.
(** The mode exists iff every concentration exceeds one; it is then a probability vector with positive entries, and
    it is where the log density, up to a constant, is stationary: (alpha_i - 1) / x_i is the same for all i. *)
Theorem C46_dirichlet_mode : forall alpha, alpha <> [] ->
  ((exists x, dirichlet_mode_of alpha = Some x) <-> Forall (fun a => 1 < a) alpha) /\
  forall x, dirichlet_mode_of alpha = Some x ->
    List.length x = List.length alpha /\ Rsum x = 1 /\ Forall (fun v => 0 < v) x /\
    exists c, forall i, (i < List.length alpha)%nat -> nth i alpha 0 - 1 = c * nth i x 0.
Proof.
  intros alpha N. unfold dirichlet_mode_of. destruct (forallb (fun a => Rltb 1 a) alpha) eqn:E.
  - assert (F : Forall (fun a => 1 < a) alpha).
    { apply Forall_forall. intros a I. rewrite forallb_forall in E. specialize (E a I).
      destruct (Rltb_spec 1 a); [assumption|discriminate]. }
    pose proof (all_gt_one alpha N F) as P. set (c := Rsum alpha - INR (List.length alpha)) in *.
    split; [split; [intros _; exact F|intros _; eexists; reflexivity]|]. intros x X. injection X as <-.
    split; [apply map_length|]. split.
    { rewrite (Rsum_map_div c (fun a => a - 1)), Rsum_minus_one. fold c. field. lra. }
    split.
    { apply Forall_forall. intros v I. apply in_map_iff in I. destruct I as (a & <- & I). rewrite Forall_forall in F.
      specialize (F a I). cbn in F. apply Rmult_lt_0_compat; [lra|apply Rinv_0_lt_compat; exact P]. }
    exists c. intros i L. rewrite (nth_indep (map (fun a => (a - 1) / c) alpha) 0 ((0 - 1) / c)) by (rewrite map_length; exact L).
    rewrite (map_nth (fun a => (a - 1) / c)). field. lra.
  - split; [|discriminate]. split; [intros (x & X); discriminate|]. intro F. exfalso.
    assert (G : forallb (fun a => Rltb 1 a) alpha = true); [|congruence]. apply forallb_forall. intros a I.
    rewrite Forall_forall in F. apply Rltb_true. apply F. exact I.
Qed.
Lemma ln_le_sub_strict t : 0 < t -> ln t <= t - 1 /\ (ln t = t - 1 -> t = 1).
Proof.
  intro H. destruct (Req_dec (ln t) 0) as [E|E].
  - assert (t = 1) as -> by (rewrite <- (exp_ln t H), E; apply exp_0). rewrite ln_1. split; lra.
  - pose proof (exp_ineq1 (ln t) E) as I. rewrite exp_ln in I by exact H. split; lra.
Qed.
Lemma gibbs c : 0 < c -> forall x y, Forall (fun v => 0 < v) x -> Forall (fun v => 0 < v) y -> List.length x = List.length y ->
  Rsum (map (fun ab => c * fst ab * ln (snd ab)) (combine x y)) <= Rsum (map (fun ab => c * fst ab * ln (snd ab)) (combine x x)) + c * (Rsum y - Rsum x) /\
  (Rsum (map (fun ab => c * fst ab * ln (snd ab)) (combine x y)) = Rsum (map (fun ab => c * fst ab * ln (snd ab)) (combine x x)) + c * (Rsum y - Rsum x) -> x = y).
Proof.
  intro C. induction x as [|a x IH]; intros [|b y] X Y L; try discriminate; [cbn; split; [lra|reflexivity]|].
  inversion X as [|? ? Pa X']; subst. inversion Y as [|? ? Pb Y']; subst. destruct (IH y X' Y' ltac:(cbn in L; lia)) as [I1 I2].
  cbn [combine map]. rewrite !Rsum_cons. cbn [fst snd].
  assert (Pq : 0 < b / a) by (apply Rmult_lt_0_compat; [exact Pb|apply Rinv_0_lt_compat, Pa]).
  assert (E : ln b = ln a + ln (b / a)) by (rewrite <- ln_mult by assumption; f_equal; field; lra).
  assert (Q : a * (b / a) = b) by (field; lra).
  destruct (ln_le_sub_strict (b / a) Pq) as [G1 G2]. set (r := b / a) in *.
  assert (K : c * a * ln r <= c * a * (r - 1)) by (apply Rmult_le_compat_l; [apply Rmult_le_pos; lra|exact G1]).
  assert (K' : c * a * (r - 1) = c * (b - a)) by (rewrite <- Q; ring). rewrite E. split; [lra|]. intro F.
  assert (F1 : c * a * ln r = c * a * (r - 1)) by lra. assert (F2 : ln r = r - 1) by (apply Rmult_eq_reg_l in F1; [exact F1|apply Rmult_integral_contrapositive; lra]).
  rewrite (G2 F2), Rmult_1_r in Q. rewrite Q, (I2 ltac:(lra)). reflexivity.
Qed.
(** The logarithm of the Dirichlet density at [x], up to a constant. *)
Definition log_density (alpha x : list R) : R := Rsum (map (fun ax => (fst ax - 1) * ln (snd ax)) (combine alpha x)).
(** And the mode is the mode: among all probability vectors with positive entries it is the only one of the largest density. *)
Theorem C46_mode_is_maximal : forall alpha x y, alpha <> [] -> dirichlet_mode_of alpha = Some x ->
  List.length y = List.length alpha -> Forall (fun v => 0 < v) y -> Rsum y = 1 ->
  log_density alpha y <= log_density alpha x /\ (log_density alpha y = log_density alpha x -> y = x).
Proof.
  intros alpha x y N X L Y S1. destruct (C46_dirichlet_mode alpha N) as [I H]. pose proof (proj1 I (ex_intro _ x X)) as A.
  destruct (H x X) as (Lx & Sx & Px & c & Hc).
  assert (C : 0 < c).
  { destruct alpha as [|a alpha]; [contradiction|]. specialize (Hc 0%nat ltac:(cbn; lia)). cbn [nth] in Hc. inversion A as [|? ? A1 _]; subst.
    destruct x as [|x0 x]; [discriminate|]. inversion Px as [|? ? P0 _]; subst. cbn [nth] in Hc. nra. }
  assert (M : forall z, List.length z = List.length alpha -> log_density alpha z = Rsum (map (fun ab => c * fst ab * ln (snd ab)) (combine x z))).
  { clear - Lx Hc. unfold log_density. revert x Lx Hc. induction alpha as [|a alpha IH]; intros [|b x] Lx Hc z Lz; try discriminate; [reflexivity|].
    destruct z as [|d z]; [discriminate|]. cbn [combine map fst snd]. rewrite !Rsum_cons. f_equal.
    - pose proof (Hc 0%nat ltac:(cbn; lia)) as H0. cbn [nth] in H0. rewrite H0. reflexivity.
    - apply IH; [cbn in Lx; lia| |cbn in Lz; lia]. intros i Hi. apply (Hc (Datatypes.S i)). cbn; lia. }
  destruct (gibbs c C x y Px Y ltac:(congruence)) as [G1 G2]. rewrite S1, Sx in G1, G2. rewrite !M by congruence. split; [lra|].
  intro E. symmetry. apply G2. lra.
Qed.
Example C46_dirichlet_applies : exists x, dirichlet_mode_of [2; 3; 4] = Some x.
Proof. apply C46_dirichlet_mode; [discriminate|]. repeat constructor; lra. Qed.
Example C46_maximal_applies : log_density [2; 3; 4] [1 / 3; 1 / 3; 1 / 3] < log_density [2; 3; 4] [1 / 6; 2 / 6; 3 / 6].
Proof.
  assert (E : dirichlet_mode_of [2; 3; 4] = Some [1 / 6; 2 / 6; 3 / 6]).
  { unfold dirichlet_mode_of. cbn [forallb]. rewrite !Rltb_true by lra. cbn [andb map]. do 2 f_equal; [|f_equal; [|f_equal]]; unfold Rsum; cbn; field. }
  destruct (C46_mode_is_maximal [2; 3; 4] _ [1 / 3; 1 / 3; 1 / 3] ltac:(discriminate) E eq_refl) as [[L|L] U].
  - repeat constructor; lra.
  - unfold Rsum. cbn. lra.
  - exact L.
  - specialize (U L). injection U. lra.
Qed.
(** The Beta marginals that are plotted have the means of a probability vector. *)
Theorem C46_marginal_means : forall alpha, 0 < Rsum alpha ->
  Rsum (map (fun ab => fst ab / (fst ab + snd ab)) (dir_marginals alpha)) = 1.
Proof.
  intros alpha P. unfold dir_marginals. rewrite map_map. cbn [fst snd].
  rewrite (map_ext _ (fun a => a / Rsum alpha)) by (intro a; f_equal; lra).
  rewrite (Rsum_map_div (Rsum alpha) (fun a => a)), map_id. field. lra.
Qed.
(** The same for Dirichlet: without parameters, it still evaluates with the old ones, while mode() raises. *)
Theorem C46_dirichlet_stale_refuted : forall o a, dir_rv o = Some a ->
  let o' := dir_parametrization o None in dir_alpha o' = None /\ dir_rv o' = Some a /\ dir_mode o' = Err TypeError.
Proof. intros o a E. cbn. auto. Qed.

(* ---------------- fits ---------------- *)
(** No multivariate distribution can be fitted: maxent and quartile raise whatever they are asked, and mle raises if the sample is in the
    support and gives the candidate an infinite loss otherwise. *)
Theorem C46_no_fit_refuted : forall frozen supp lower upper,
  (exists e, multi_elicit frozen supp lower upper = Err e /\ (e = ValueError \/ e = AttributeError)) /\
  (multi_fit_sample supp lower upper = Err RuntimeError <-> xle (fst supp) lower /\ xle upper (snd supp)) /\
  (multi_fit_sample supp lower upper <> Err RuntimeError -> multi_fit_sample supp lower upper = Ok PInf).
Proof.
  intros frozen [l u] lower upper. split; [|split].
  - unfold multi_elicit. destruct frozen; [exists ValueError; auto|]. unfold check_endpoints.
    destruct (xisfinite l && xltb lower l); [exists ValueError; cbn; auto|].
    destruct (xisfinite u && xltb u upper); [exists ValueError; cbn; auto|].
    destruct (xisfinite l && xisfinite u && xeqb lower l && xeqb upper u); [exists ValueError; cbn; auto|]. exists AttributeError. cbn. auto.
  - pose proof (C25_check_endpoints_silent l u lower upper) as S. unfold multi_fit_sample. cbn [fst snd].
    destruct (check_endpoints_silent (l, u) lower upper); split; intro H; try tauto; try discriminate.
    apply S in H. discriminate.
  - unfold multi_fit_sample. destruct (check_endpoints_silent (l, u) lower upper); tauto.
Qed.
Example C46_no_fit_applies : multi_fit_sample (NInf, PInf) (Fin 0) (Fin 3) = Err RuntimeError /\ multi_elicit false (NInf, PInf) (Fin 0) (Fin 3) = Err AttributeError.
Proof. split; reflexivity. Qed.

Print Assumptions C46_variance.
Print Assumptions C46_rejected_variance_refuted.
Print Assumptions C46_stale_refuted.
Print Assumptions C46_no_fit_refuted.
Print Assumptions C46_dirichlet_mode.
Print Assumptions C46_frozen_iff.
Print Assumptions C46_mode_is_maximal.
