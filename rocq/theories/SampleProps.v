(** C73: fits to a sample by searching for the largest likelihood. *)
From Coq Require Import List Bool String Reals ZArith Lra Lia FunctionalExtensionality.
From Verif Require Import Base RLists XR SpecialModel FamModel FamSpec FamArith FamProofs FamReadback FamHistory FamProps OptModel OptProps
  SelProps BoundModel BoundSpec BoundProps FitModel MleModel MleProps GeoProps LawModel LawProofs SampleModel.
Import ListNotations.
Open Scope R_scope.
Open Scope string_scope.

(* ------------------------------------------------------------ small facts *)
Lemma bind_ok {A B} (r : res A) (k : A -> res B) b : bind r k = Ok b -> exists a, r = Ok a /\ k a = Ok b.
Proof. destruct r as [a|e]; cbn [bind]; [eauto|discriminate]. Qed.

Lemma same_view_refl f d : same_view f d d.
Proof. unfold same_view. tauto. Qed.
Lemma same_view_sym f d e : same_view f d e -> same_view f e d.
Proof. intros (A & B & C & D & E). unfold same_view. repeat split; try congruence. intros k Hk. symmetry. auto. Qed.

Lemma canonical_signature f k : In k (canonical f) -> In k (signature f).
Proof. destruct f; cbn; tauto. Qed.
Lemma same_values f d e : same_view f d e -> values f d = values f e.
Proof. intros (_ & _ & _ & _ & H). unfold values. apply map_ext_in. intros k Hk. apply H, canonical_signature, Hk. Qed.

(** Updates of BetaScaled and TruncatedNormal that leave out the ends. *)
Lemma update_short f d e x y : In f [BetaScaled; TruncatedNormal] -> same_view f d e ->
  exists d' e', update f d [x; y] = Ok d' /\ update f e [x; y] = Ok e' /\ same_view f d' e'.
Proof.
  intros [<-|[<-|[]]] (A & B & C & D & E); cbn [update]; (eexists; eexists; split; [reflexivity|split; [reflexivity|]]);
    unfold same_view, betascaled_update, truncatednormal_update;
    cbn -[np_float64]; pose proof (E "lower" ltac:(cbn; tauto)) as El; pose proof (E "upper" ltac:(cbn; tauto)) as Eu;
    rewrite El, Eu;
    (repeat split; try reflexivity; try exact A);
    intros k Hk; repeat (destruct Hk as [<-|Hk]); try contradiction; cbn; assumption || reflexivity.
Qed.

Section Fits.
Variable ptd_ig : xr -> xr -> xr * xr.
Variable euler_gamma : R.
Variable gamma : R -> xr.
Variable sort : list R -> list R.
Variable skew circmean : list R -> R.
Variables i0e i1e : R -> R.
Variable root_scalar : (R -> R) -> R * R -> res R.
Variable rice : R -> R -> R * R.
Variables mean_of std_of : family -> list (option xr) -> xr.
Variable logpdf : family -> list (option xr) -> R -> xr.
Variable least_squares : (list xr -> xr) -> list xr -> option (list bound) -> list (list xr) * list xr.
Variable minimize : (list xr -> xr) -> list (option xr) -> list bound -> list (list xr) * list xr.
Let search_moments := search_moments ptd_ig rice mean_of std_of least_squares.
Let moments_fit := moments_fit ptd_ig euler_gamma gamma rice mean_of std_of least_squares.
Let likelihood_fit := likelihood_fit ptd_ig euler_gamma gamma rice mean_of std_of logpdf least_squares minimize.
Let fit_mle := fit_mle ptd_ig euler_gamma gamma sort skew circmean i0e i1e root_scalar rice mean_of std_of logpdf least_squares minimize.
Let fit_one := fit_one ptd_ig euler_gamma gamma sort skew circmean i0e i1e root_scalar rice mean_of std_of logpdf least_squares minimize.

(** The families whose starting point is computed from the sample alone. *)
Definition starts_from_sample (f : family) : bool :=
  match f with
  | StudentT | HalfStudentT | BetaBinomial | DiscreteWeibull | HyperGeometric | Kumaraswamy | LogLogistic
  | NegativeBinomial | SkewNormal | SkewStudentT | ZeroInflatedBinomial | ZeroInflatedNegativeBinomial
  | ZeroInflatedPoisson => false
  | _ => true
  end.
(** Those with a formula for it. *)
Definition formula_start (f : family) : bool :=
  starts_from_sample f && match f with Binomial | VonMises | BetaScaled | TruncatedNormal => false | _ => true end.

Lemma moments_by_update f m s : formula_start f = true ->
  exists u : res (list (option xr)), forall d, moments_fit f d m s = (do v <- u; update f d v).
Proof.
  intro H. unfold moments_fit, SampleModel.moments_fit.
  destruct f; try discriminate H; clear H; cbn [fit_moments];
    try (refine (ex_intro _ (Ok [Some _]) _); intro d; reflexivity);
    try (refine (ex_intro _ (Ok [Some _; Some _]) _); intro d; reflexivity);
    try (refine (ex_intro _ (Ok [Some _; Some _; Some _]) _); intro d; reflexivity);
    unfold al_fit, beta_fit, discreteuniform_fit, exponential_fit, gamma_fit, geometric_fit, gumbel_fit, halfnormal_fit,
      inversegamma_fit, laplace_fit, logistic_fit, lognormal_fit, moyal_fit, pareto_fit, triangular_fit, wald_fit, weibull_fit.
  all: repeat match goal with
       | |- context [pyhalf (Fin ?x)] => destruct (pyhalf (Fin x)) as [?|?]; cbn [bind]
       | |- context [beta_from_mu_sigma ?x ?y] => destruct (beta_from_mu_sigma x y) as [[? ?]|?]; cbn [bind]
       | |- context [gamma_from_mu_sigma ?x ?y] => destruct (gamma_from_mu_sigma x y) as [[? ?]|?]; cbn [bind]
       | |- context [pydiv ?x ?y] => destruct (pydiv x y) as [?|?]; cbn [bind]
       | |- context [pyhalf ?x] => destruct (pyhalf x) as [?|?]; cbn [bind]
       | |- context [garcia_approximation ?g ?x ?y] => destruct (garcia_approximation g x y) as [? ?]
       | |- context [rice ?x ?y] => destruct (rice x y) as [? ?]
       end.
  all: try (refine (ex_intro _ (Err _) _); intro d; reflexivity).
  all: try (refine (ex_intro _ (Ok [Some _]) _); intro d; reflexivity).
  all: try (refine (ex_intro _ (Ok [Some _; Some _]) _); intro d; reflexivity).
  all: try (refine (ex_intro _ (Ok [Some _; Some _; Some _]) _); intro d; reflexivity).
  all: cbn [SampleModel.search_moments]; destruct (rice m s) as [? ?].
  all: try (refine (ex_intro _ (Ok [Some _; Some _]) _); intro d; reflexivity).
Qed.

(** What scipy promises about minimize: if anything is within the bounds, every vector it tries, and the one it returns,
    is finite and within them. *)
Definition stays_inside : Prop := forall fn x0 bs v, leaves_room bs ->
  In v (snd (minimize fn x0 bs) :: fst (minimize fn x0 bs)) -> exists ys, v = map Fin ys /\ all_inside (map Fin ys) bs.

Lemma stays_honours fn : stays_inside -> honours_bounds (minimize fn).
Proof. intros H x0 bs L. destruct (H fn x0 bs _ L (or_introl eq_refl)) as (ys & A & B). eauto. Qed.

Lemma support_length f ns N : List.length (params_support f ns N) = List.length (canonical f).
Proof. destruct f; cbn; try reflexivity; repeat match goal with |- context [if ?c then _ else _] => destruct c end; reflexivity. Qed.

Lemma bounded_sets f (v : list xr) : List.length v = List.length (canonical f) -> sets_bounds f (map Some v).
Proof.
  intro H. destruct f; cbn [sets_bounds]; try exact I; cbn in H;
    destruct v as [|a [|b [|c [|e [|? ?]]]]]; try discriminate H; cbn; eauto 10.
Qed.

Lemma view_agree f d e u d' : In (names d) (sets f) -> same_view f d e -> sets_bounds f u ->
  update f d u = Ok d' -> exists e', update f e u = Ok e' /\ same_view f d' e'.
Proof.
  intros HP (A & B & C & D & E) HS HU. eapply update_agree; eauto.
Qed.

Lemma negll_agree f d e sample : In (names d) (sets f) -> same_view f d e -> negll logpdf f d sample = negll logpdf f e sample.
Proof.
  intros HP HV. apply functional_extensionality. intro v. unfold negll.
  destruct (Nat.eqb (List.length v) (List.length (canonical f))) eqn:L; [|reflexivity]. cbn [negb].
  apply Nat.eqb_eq in L. pose proof (bounded_sets f v L) as HS.
  destruct (update f d (map Some v)) as [d'|x] eqn:U.
  - destruct (view_agree f d e _ _ HP HV HS U) as (e' & U' & V). rewrite U'. rewrite (same_values _ _ _ V). reflexivity.
  - destruct (update f e (map Some v)) as [e'|y] eqn:U'; [|reflexivity].
    assert (HP' : In (names e) (sets f)) by (destruct HV as (A & _); rewrite <- A; exact HP).
    destruct (view_agree f e d _ _ HP' (same_view_sym _ _ _ HV) HS U') as (d' & U2 & _). congruence.
Qed.

Lemma tried_agree f tried : forall d e d2, In (names d) (sets f) -> same_view f d e ->
  (forall v, In v tried -> List.length v = List.length (canonical f)) ->
  fold_left (fun r c => do s <- r; update f s (map Some c)) tried (Ok d) = Ok d2 ->
  exists e2, fold_left (fun r c => do s <- r; update f s (map Some c)) tried (Ok e) = Ok e2 /\ same_view f d2 e2.
Proof.
  induction tried as [|c r IH]; intros d e d2 HP HV HL H; cbn [fold_left bind] in H |- *.
  - injection H as <-. eauto.
  - destruct (update f d (map Some c)) as [d'|x] eqn:U.
    + destruct (view_agree f d e _ _ HP HV (bounded_sets f c (HL c (or_introl eq_refl))) U) as (e' & U' & V). rewrite U'.
      apply (IH d' e' d2); [rewrite (update_names _ _ _ _ U); exact HP|exact V|intros v Hv; apply HL; right; exact Hv|exact H].
    + exfalso. clear - H. induction r as [|c' r IH]; cbn [fold_left bind] in H; [discriminate|auto].
Qed.

Lemma search_agree f d e sample d' : stays_inside -> f <> HyperGeometric -> In (names d) (sets f) -> same_view f d e ->
  optimize_ml f (fun d => Ok d) (minimize (negll logpdf f d sample)) (attr d "N") d = Ok d' ->
  exists e', optimize_ml f (fun d => Ok d) (minimize (negll logpdf f e sample)) (attr e "N") e = Ok e' /\ same_view f d' e'.
Proof.
  intros HM NH HP HV H. rewrite <- (negll_agree f d e sample HP HV).
  assert (HN : params_support f (names e) (attr e "N") = params_support f (names d) (attr d "N")).
  { destruct HV as (A & _ & _ & _ & E). rewrite <- A. destruct f; try reflexivity. rewrite (E "N") by (cbn; tauto). reflexivity. }
  unfold optimize_ml in H |- *. cbn [bind] in H |- *. rewrite HN.
  assert (HQ : params e = params d) by (destruct HV as (_ & B & _); congruence). rewrite HQ.
  pose proof (HM (negll logpdf f d sample) (params d) (params_support f (names d) (attr d "N"))) as HI.
  destruct (minimize (negll logpdf f d sample) (params d) (params_support f (names d) (attr d "N"))) as [tried x].
  cbn [fst snd] in HI.
  assert (HL : forall v, In v (x :: tried) -> List.length v = List.length (canonical f)).
  { intros v Hv. destruct (HI v (bounds_leave_room _ _ _ (fun K => False_ind _ (NH K))) Hv) as (ys & -> & B). pose proof (all_inside_length _ _ B) as L.
    rewrite support_length in L. exact L. }
  apply bind_ok in H. destruct H as (d2 & F & U).
  destruct (tried_agree f tried d e d2 HP HV) as (e2 & F' & V2); [intros v Hv; apply HL; right; exact Hv|exact F|].
  rewrite F'. cbn [bind].
  eapply view_agree; [|exact V2|apply bounded_sets, HL; left; reflexivity|exact U].
  rewrite (candidates_names f tried d d2 F). exact HP.
Qed.

(** Started on two instances that look alike, the search ends on instances that look alike. *)
Lemma moments_agree f d e m s d' : starts_from_sample f = true -> In (names d) (sets f) -> names e = names d ->
  (fixed_support f -> supp e = supp d) -> f <> Binomial -> f <> VonMises ->
  (In f [BetaScaled; TruncatedNormal] -> same_view f d e) ->
  moments_fit f d m s = Ok d' -> exists e', moments_fit f e m s = Ok e' /\ same_view f d' e' /\ names d' = names d.
Proof.
  intros HF HP He Hs N1 N2 HB H.
  destruct (formula_start f) eqn:FS.
  - destruct (moments_by_update f m s FS) as (u & E). rewrite E in H |- *. apply bind_ok in H. destruct H as (v & -> & U).
    cbn [bind]. destruct (update_agree f d e v d' HP He Hs) as (e' & U' & V); eauto.
    { destruct f; try exact I; discriminate FS. }
    exists e'. split; [exact U'|]. split; [exact V|]. exact (update_names _ _ _ _ U).
  - unfold formula_start in FS. rewrite HF in FS. cbn [andb] in FS.
    destruct f; try discriminate FS; try congruence; unfold moments_fit, SampleModel.moments_fit in *; cbn [fit_moments] in *.
    + specialize (HB ltac:(cbn; tauto)). unfold betascaled_fit in *.
      pose proof HB as (_ & _ & _ & _ & E). rewrite <- (E "lower"), <- (E "upper") by (cbn; tauto).
      destruct (attr d "lower") as [lo|]; [|discriminate]. destruct (attr d "upper") as [up|]; [|discriminate].
      repeat (apply bind_ok in H; destruct H as (? & ? & H)); repeat match goal with K : ?r = Ok _ |- context [?r] => rewrite K; cbn [bind] end.
      match type of H with Ok (betascaled_update _ ?x ?y _ _) = _ =>
        destruct (update_short BetaScaled d e x y ltac:(cbn; tauto) HB) as (d1 & e1 & U1 & U2 & V) end.
      cbn [update] in U1, U2. injection H as <-. injection U1 as <-. injection U2 as <-. eexists. split; [reflexivity|].
      split; [exact V|reflexivity].
    + specialize (HB ltac:(cbn; tauto)).
      destruct (update_short TruncatedNormal d e (Some (Fin m)) (Some (Fin s)) ltac:(cbn; tauto) HB) as (d1 & e1 & U1 & U2 & V).
      cbn [update] in U1, U2. injection H as <-. injection U1 as <-. injection U2 as <-. eexists. split; [reflexivity|].
      split; [exact V|reflexivity].
Qed.

Lemma likelihood_agree f d e sample d' : stays_inside -> starts_from_sample f = true -> In (names d) (sets f) ->
  names e = names d -> (fixed_support f -> supp e = supp d) -> f <> Binomial -> f <> VonMises ->
  (In f [BetaScaled; TruncatedNormal] -> same_view f d e) ->
  likelihood_fit f d sample = Ok d' -> exists e', likelihood_fit f e sample = Ok e' /\ same_view f d' e'.
Proof.
  intros HM HF HP He Hs N1 N2 HB H. unfold likelihood_fit, SampleModel.likelihood_fit in *.
  destruct (mean_and_std sample) as [m s]. apply bind_ok in H. destruct H as (d1 & M & O).
  destruct (moments_agree f d e m s d1 HF HP He Hs N1 N2 HB M) as (e1 & M' & V & N). unfold moments_fit in M'. rewrite M'. cbn [bind].
  apply (search_agree f d1 e1 sample d' HM); [intro K; subst f; discriminate HF|rewrite N; exact HP|exact V|exact O].
Qed.

(** Values given for parameters do not matter: whatever was given, every parameter is estimated from the sample, as the
    documentation of mle promises. For all families but the thirteen that take their starting point from what was given. *)
Theorem C73_all_parameters_estimated : forall f a b d e sample d', stays_inside -> starts_from_sample f = true ->
  construct ptd_ig f a = Ok d -> construct ptd_ig f b = Ok e -> names e = names d ->
  fit_mle f d sample = Ok d' -> exists e', fit_mle f e sample = Ok e' /\ same_view f d' e'.
Proof.
  intros f a b d e sample d' HM HF CA CB He H.
  pose proof (construct_names _ _ _ _ CA) as HP.
  assert (Hs : fixed_support f -> supp e = supp d).
  { intro FS. rewrite (construct_supp _ _ _ _ FS CA), (construct_supp _ _ _ _ FS CB). reflexivity. }
  assert (CU : forall u, sets_bounds f u -> forall d', update f d u = Ok d' -> exists e', update f e u = Ok e' /\ same_view f d' e').
  { intros u SB dd U. eapply update_agree; eauto. }
  unfold fit_mle, SampleModel.fit_mle in *.
  destruct f; try discriminate HF;
    try (apply CU; [exact I|exact H]);
    try (apply bind_ok in H; destruct H as (p & -> & H); cbn [bind]; apply CU; [exact I|exact H]);
    try (eapply likelihood_agree; eauto; try discriminate; intro K; repeat (destruct K as [K|K]; [discriminate|]); contradiction).
  - (* Beta *) destruct (mean_and_std sample) as [m s]. apply bind_ok in H. destruct H as (d1 & M & L).
    destruct (moments_agree Beta d e m s d1) as (e1 & M' & V & N); eauto; try discriminate.
    { intro K; repeat (destruct K as [K|K]; [discriminate|]); contradiction. }
    unfold moments_fit in M'. rewrite M'. cbn [bind].
    assert (HP1 : In (names d1) (sets _)) by (rewrite N; exact HP).
    eapply likelihood_agree; [exact HM|reflexivity|exact HP1| | | | | |exact L]; try discriminate;
      [destruct V; congruence|destruct V as (_ & _ & S & _); congruence|intros _; exact V].
  - (* BetaScaled *) apply bind_ok in H. destruct H as (lo & -> & H). apply bind_ok in H. destruct H as (up & -> & H).
    cbn [bind]. apply bind_ok in H. destruct H as (d1 & U & L).
    destruct (CU _ ltac:(cbn; eauto 10) d1 U) as (e1 & U' & V). rewrite U'. cbn [bind].
    assert (HP1 : In (names d1) (sets _)) by (rewrite (update_names _ _ _ _ U); exact HP).
    eapply likelihood_agree; [exact HM|reflexivity|exact HP1| | | | | |exact L]; try discriminate;
      [destruct V; congruence|destruct V as (_ & _ & S & _); congruence|intros _; exact V].
  - (* TruncatedNormal *) apply bind_ok in H. destruct H as (lo & -> & H). apply bind_ok in H. destruct H as (up & -> & H).
    cbn [bind]. apply bind_ok in H. destruct H as (d1 & U & L).
    destruct (CU _ ltac:(cbn; eauto 10) d1 U) as (e1 & U' & V). rewrite U'. cbn [bind].
    assert (HP1 : In (names d1) (sets _)) by (rewrite (update_names _ _ _ _ U); exact HP).
    eapply likelihood_agree; [exact HM|reflexivity|exact HP1| | | | | |exact L]; try discriminate;
      [destruct V; congruence|destruct V as (_ & _ & S & _); congruence|intros _; exact V].
  - (* Weibull *) destruct (mean_and_std sample) as [m s]. apply bind_ok in H. destruct H as (d1 & M & L).
    destruct (moments_agree Weibull d e m s d1) as (e1 & M' & V & N); eauto; try discriminate.
    { intro K; repeat (destruct K as [K|K]; [discriminate|]); contradiction. }
    unfold moments_fit in M'. rewrite M'. cbn [bind].
    assert (HP1 : In (names d1) (sets _)) by (rewrite N; exact HP).
    eapply likelihood_agree; [exact HM|reflexivity|exact HP1| | | | | |exact L]; try discriminate;
      [destruct V; congruence|destruct V as (_ & _ & S & _); congruence|intros _; exact V].
Qed.

(* ------------------------------------------------------------ the likelihood of the result *)
(** The families fitted by searching. *)
Definition searched (f : family) : bool :=
  match f with
  | Binomial | DiscreteUniform | ExGaussian | Exponential | Geometric | HalfNormal | Laplace | LogitNormal | LogNormal
  | Normal | Poisson | Triangular | Uniform | VonMises => false
  | _ => true
  end.

Lemma update_total f d ys N : In (names d) (sets f) -> all_inside (map Fin ys) (params_support f (names d) N) ->
  exists d', update f d (map Some (map Fin ys)) = Ok d'.
Proof.
  intros HP HB. pose proof eps_small as He. pose proof (all_inside_length _ _ HB) as HL.
  rewrite map_length, support_length in HL. clear HB.
  destruct f; cbn in HL; destruct ys as [|y1 [|y2 [|y3 [|y4 [|y5 yr]]]]]; try discriminate HL;
    cbn [map update]; try (eexists; reflexivity);
    unfold betabinomial_update, binomial_update, zib_update, hypergeometric_update;
    cbn [np_int64 bind]; eexists; reflexivity.
Qed.

(** The parameters of an instance updated with [ys] (counts are cut to integers). *)
Definition installed (f : family) (ys : list R) : list (option xr) :=
  map (fun ky => Some (Fin (readback f (fst ky) (snd ky)))) (combine (canonical f) ys).

Lemma values_installed f d ys d' N : In (names d) (sets f) ->
  all_inside (map Fin ys) (params_support f (names d) N) -> update f d (map Some (map Fin ys)) = Ok d' ->
  values f d' = installed f ys.
Proof.
  intros HP HB HU. destruct (update_installs f d ys d' N HP HB HU) as (_ & HL & HA). clear HP HB HU.
  unfold values, installed. generalize dependent ys. generalize (canonical f) as ks.
  induction ks as [|k ks IH]; intros ys HL HA; destruct ys as [|y ys]; try discriminate HL; [reflexivity|].
  cbn [map combine fst snd]. f_equal; [exact (HA 0%nat k y eq_refl eq_refl)|].
  apply IH; [cbn in HL; congruence|]. intros i k' y' Hk Hy. exact (HA (S i) k' y' Hk Hy).
Qed.
Lemma installed_map f (v : string -> R) :
  installed f (map v (canonical f)) = map (fun k => Some (Fin (readback f k (v k)))) (canonical f).
Proof.
  unfold installed. generalize (canonical f) as ks. induction ks as [|k ks IH]; [reflexivity|].
  cbn [map combine fst snd]. rewrite IH. reflexivity.
Qed.

Lemma negll_installed f d ys sample N : In (names d) (sets f) -> all_inside (map Fin ys) (params_support f (names d) N) ->
  negll logpdf f d sample (map Fin ys) = neg_loglik (logpdf f) (installed f ys) sample.
Proof.
  intros HP HB. unfold negll. pose proof (all_inside_length _ _ HB) as L. rewrite support_length in L.
  rewrite (proj2 (Nat.eqb_eq _ _) L). cbn [negb].
  destruct (update_total f d ys N HP HB) as (d' & U). rewrite U. rewrite (values_installed f d ys d' N HP HB U). reflexivity.
Qed.

(** For this sample, the search ends at a vector within the bounds that no other vector within them beats. *)
Definition finds_best (f : family) (sample : list R) : Prop := forall d1, In (names d1) (sets f) ->
  let fn := negll logpdf f d1 sample in
  let bs := params_support f (names d1) (attr d1 "N") in
  exists ys, snd (minimize fn (params d1) bs) = map Fin ys /\ all_inside (map Fin ys) bs /\
    forall zs, all_inside (map Fin zs) bs -> xleb (fn (map Fin ys)) (fn (map Fin zs)) = true.
(** For this sample, the search does not end at anything worse than where it began, if it began within the bounds. *)
Definition descends (f : family) (sample : list R) : Prop := forall d1, In (names d1) (sets f) ->
  let fn := negll logpdf f d1 sample in
  let bs := params_support f (names d1) (attr d1 "N") in
  exists ys, snd (minimize fn (params d1) bs) = map Fin ys /\ all_inside (map Fin ys) bs /\
    forall zs, params d1 = map (fun z => Some (Fin z)) zs -> all_inside (map Fin zs) bs ->
      xleb (fn (map Fin ys)) (fn (map Fin zs)) = true.

Lemma install_all_result {A} (reparam : list (string * A) -> res dist) ns n idx fx tried : forall x d,
  install_all reparam ns n idx fx tried x = Ok d -> exists kw, reparam kw = Ok d.
Proof.
  induction tried as [|v r IH]; intros x d H; cbn [install_all] in H; apply bind_ok in H; destruct H as (kw & _ & H).
  - eauto.
  - apply bind_ok in H. destruct H as (_ & _ & H). eauto.
Qed.

Lemma mean_sigma_names f d m s g d1 :
  optimize_mean_sigma ptd_ig mean_of std_of least_squares f d m s g = Ok d1 -> In (names d1) (sets f).
Proof.
  intro H. unfold optimize_mean_sigma in H. apply bind_ok in H. destruct H as ([[idx fx] x0] & _ & H).
  apply bind_ok in H. destruct H as ([tried x] & _ & H). apply install_all_result in H. destruct H as (kw & H).
  exact (construct_names _ _ _ _ H).
Qed.

Lemma moments_names f d m s d1 : In (names d) (sets f) -> moments_fit f d m s = Ok d1 -> In (names d1) (sets f).
Proof.
  intros HP H. destruct (formula_start f) eqn:FS.
  { destruct (moments_by_update f m s FS) as (u & E). rewrite E in H. apply bind_ok in H. destruct H as (v & _ & U).
    rewrite (update_names _ _ _ _ U). exact HP. }
  unfold moments_fit, SampleModel.moments_fit in H.
  destruct f; try discriminate FS; clear FS; cbn [fit_moments SampleModel.search_moments] in H;
    try (exact (mean_sigma_names _ _ _ _ _ _ H)).
  - unfold halfstudentt_fit in H. apply bind_ok in H. destruct H as (x & _ & U).
    rewrite (update_names HalfStudentT d [Some _; Some x] d1 U). exact HP.
  - unfold studentt_fit in H. apply bind_ok in H. destruct H as (x & _ & U).
    rewrite (update_names StudentT d [Some _; Some _; Some x] d1 U). exact HP.
  - unfold betascaled_fit in H. destruct (attr d "lower"); [|discriminate]. destruct (attr d "upper"); [|discriminate].
    repeat (apply bind_ok in H; destruct H as (? & ? & H)).
    match type of H with Ok (betascaled_update _ ?x ?y _ _) = _ => rewrite (update_names BetaScaled d [x; y] d1 H) end. exact HP.
  - apply bind_ok in H. destruct H as (g & _ & H). exact (mean_sigma_names _ _ _ _ _ _ H).
  - rewrite (update_names TruncatedNormal d [Some _; Some _] d1 H). exact HP.
Qed.

Lemma likelihood_split f d sample e : In (names d) (sets f) -> likelihood_fit f d sample = Ok e ->
  exists d1, moments_fit f d (fst (mean_and_std sample)) (snd (mean_and_std sample)) = Ok d1 /\ In (names d1) (sets f) /\
    optimize_ml f (fun d => Ok d) (minimize (negll logpdf f d1 sample)) (attr d1 "N") d1 = Ok e.
Proof.
  intros HP H. unfold likelihood_fit, SampleModel.likelihood_fit in H. destruct (mean_and_std sample) as [m s]. cbn [fst snd].
  apply bind_ok in H. destruct H as (d1 & M & O). exists d1. split; [exact M|]. split; [exact (moments_names f d m s d1 HP M)|exact O].
Qed.

(** Every searching fit is a search started from a fit to the mean and the deviation of the sample. *)
Lemma searched_split f d sample e : searched f = true -> In (names d) (sets f) -> fit_mle f d sample = Ok e ->
  exists d0 d1, moments_fit f d0 (fst (mean_and_std sample)) (snd (mean_and_std sample)) = Ok d1 /\ In (names d1) (sets f) /\
    optimize_ml f (fun d => Ok d) (minimize (negll logpdf f d1 sample)) (attr d1 "N") d1 = Ok e.
Proof.
  intros HS HP H. unfold fit_mle, SampleModel.fit_mle in H.
  destruct f; try discriminate HS; clear HS;
    try (destruct (likelihood_split _ d sample e HP H) as (d1 & A & B & C); exists d, d1; auto; fail).
  - destruct (mean_and_std sample) as [m s] eqn:MS. apply bind_ok in H. destruct H as (d0 & M & L).
    destruct (likelihood_split _ d0 sample e (moments_names _ _ _ _ _ HP M) L) as (d1 & A & B & C).
    rewrite MS in A. exists d0, d1. auto.
  - set (da := setA d "alpha" _) in H. assert (HPa : In (names da) (sets SkewNormal)) by exact HP.
    destruct (likelihood_split SkewNormal da sample e HPa H) as (d1 & A & B & C). eauto.
  - apply bind_ok in H. destruct H as (lo & _ & H). apply bind_ok in H. destruct H as (up & _ & H).
    apply bind_ok in H. destruct H as (d0 & U & L).
    assert (HP0 : In (names d0) (sets BetaScaled)) by (rewrite (update_names _ _ _ _ U); exact HP).
    destruct (likelihood_split _ d0 sample e HP0 L) as (d1 & A & B & C). eauto.
  - apply bind_ok in H. destruct H as (lo & _ & H). apply bind_ok in H. destruct H as (up & _ & H).
    apply bind_ok in H. destruct H as (d0 & U & L).
    assert (HP0 : In (names d0) (sets TruncatedNormal)) by (rewrite (update_names _ _ _ _ U); exact HP).
    destruct (likelihood_split _ d0 sample e HP0 L) as (d1 & A & B & C). eauto.
  - destruct (mean_and_std sample) as [m s] eqn:MS. apply bind_ok in H. destruct H as (d0 & M & L).
    destruct (likelihood_split _ d0 sample e (moments_names _ _ _ _ _ HP M) L) as (d1 & A & B & C).
    rewrite MS in A. exists d0, d1. auto.
Qed.

Lemma search_result f d1 sample e ys : In (names d1) (sets f) ->
  let bs := params_support f (names d1) (attr d1 "N") in
  snd (minimize (negll logpdf f d1 sample) (params d1) bs) = map Fin ys -> all_inside (map Fin ys) bs ->
  optimize_ml f (fun d => Ok d) (minimize (negll logpdf f d1 sample)) (attr d1 "N") d1 = Ok e ->
  values f e = installed f ys /\ names e = names d1 /\ frozen e = true.
Proof.
  intros HP bs E HB H. unfold optimize_ml in H. cbn [bind] in H. fold bs in H.
  destruct (minimize (negll logpdf f d1 sample) (params d1) bs) as [tried x]. cbn [snd] in E. subst x.
  apply bind_ok in H. destruct H as (d2 & F & U). pose proof (candidates_names f tried d1 d2 F) as N2. unfold bs in HB.
  rewrite <- N2 in HB. assert (HP2 : In (names d2) (sets f)) by (rewrite N2; exact HP).
  split; [exact (values_installed f d2 ys e _ HP2 HB U)|]. split; [rewrite (update_names _ _ _ _ U); exact N2|].
  destruct (update_installs f d2 ys e _ HP2 HB U) as (Fz & _). exact Fz.
Qed.

Lemma canonical_in_sets f : In (canonical f) (sets f).
Proof. destruct f; cbn; tauto. Qed.

(** The fitted instance has at least the likelihood of every instance whose parameters are not at the very edge of what
    is documented, if the optimiser finds the best point within the bounds it is given. *)
Theorem C73_maximum_likelihood : forall f d sample e v, searched f = true -> f <> HyperGeometric ->
  In (names d) (sets f) -> finds_best f sample -> fit_mle f d sample = Ok e -> names e = canonical f ->
  with_room f (canonical f) v ->
  xleb (neg_loglik (logpdf f) (values f e) sample)
       (neg_loglik (logpdf f) (map (fun k => Some (Fin (readback f k (v k)))) (canonical f)) sample) = true.
Proof.
  intros f d sample e v HS NH HP HB H HN HR.
  destruct (searched_split f d sample e HS HP H) as (d0 & d1 & M & HP1 & O).
  destruct (HB d1 HP1) as (ys & E & IN & BEST). destruct (search_result f d1 sample e ys HP1 E IN O) as (V & N1 & _).
  rewrite V. rewrite <- (negll_installed f d1 ys sample _ HP1 IN).
  rewrite <- (installed_map f v).
  assert (IZ : all_inside (map Fin (map v (canonical f))) (params_support f (names d1) (attr d1 "N"))).
  { rewrite map_map. rewrite <- N1, HN.
    assert (Hb : (f, canonical f) <> (Bernoulli, ["logit_p"])) by (destruct f; discriminate).
    destruct (C53_nothing_cut_off f (canonical f) None v (canonical_in_sets f) Hb (or_introl eq_refl) HR) as (_ & B).
    replace (params_support f (canonical f) (attr d1 "N")) with (params_support f (canonical f) None); [exact B|].
    destruct f; try reflexivity. congruence. }
  rewrite <- (negll_installed f d1 _ sample _ HP1 IZ). apply BEST. exact IZ.
Qed.

(** The fitted instance has at least the likelihood of the instance fitted to the mean and the deviation of the sample,
    if the optimiser never does worse than its start. *)
Theorem C73_better_than_moments : forall f d sample e, searched f = true -> In (names d) (sets f) -> descends f sample ->
  fit_mle f d sample = Ok e ->
  exists d0 d1, moments_fit f d0 (fst (mean_and_std sample)) (snd (mean_and_std sample)) = Ok d1 /\ frozen e = true /\
    names e = names d1 /\
    forall zs, params d1 = map (fun z => Some (Fin z)) zs ->
      all_inside (map Fin zs) (params_support f (names d1) (attr d1 "N")) ->
      xleb (neg_loglik (logpdf f) (values f e) sample) (neg_loglik (logpdf f) (installed f zs) sample) = true.
Proof.
  intros f d sample e HS HP HB H.
  destruct (searched_split f d sample e HS HP H) as (d0 & d1 & M & HP1 & O). exists d0, d1. split; [exact M|].
  destruct (HB d1 HP1) as (ys & E & IN & BEST). destruct (search_result f d1 sample e ys HP1 E IN O) as (V & N1 & FZ).
  split; [exact FZ|]. split; [exact N1|]. intros zs EZ IZ. rewrite V.
  rewrite <- (negll_installed f d1 ys sample _ HP1 IN), <- (negll_installed f d1 zs sample _ HP1 IZ).
  apply BEST; assumption.
Qed.

(* ------------------------------------------------------------ the closed forms *)
Lemma Ok_eq {A} (x y : A) : Ok x = Ok y -> y = x.
Proof. congruence. Qed.
Ltac own := unfold normal_update, logitnormal_update, halfnormal_update, exponential_update, uniform_update;
  repeat match goal with |- context [if ?c then _ else _] => destruct c end; reflexivity.
(** The families with a formula: the parameters of the fitted instance maximise the likelihood. *)
Theorem C73_closed_forms : forall d sample e, sample <> [] ->
  (fit_mle Normal d sample = Ok e -> exists m s, attr e "mu" = Some (Fin m) /\ attr e "sigma" = Some (Fin s) /\
     (0 < s -> forall mu sigma, 0 < sigma -> likelihood (normal_pdf mu sigma) sample <= likelihood (normal_pdf m s) sample)) /\
  (fit_mle LogNormal d sample = Ok e -> Forall (fun x => 0 < x) sample ->
     exists m s, attr e "mu" = Some (Fin m) /\ attr e "sigma" = Some (Fin s) /\
     (0 < s -> forall mu sigma, 0 < sigma -> likelihood (lognormal_pdf mu sigma) sample <= likelihood (lognormal_pdf m s) sample)) /\
  (fit_mle LogitNormal d sample = Ok e -> Forall (fun x => 0 < x < 1) sample ->
     exists m s, attr e "mu" = Some (Fin m) /\ attr e "sigma" = Some (Fin s) /\
     (0 < s -> forall mu sigma, 0 < sigma -> likelihood (logitnormal_pdf mu sigma) sample <= likelihood (logitnormal_pdf m s) sample)) /\
  (fit_mle HalfNormal d sample = Ok e -> Forall (fun x => 0 <= x) sample -> exists s, attr e "sigma" = Some (Fin s) /\
     (0 < s -> forall sigma, 0 < sigma -> likelihood (halfnormal_pdf sigma) sample <= likelihood (halfnormal_pdf s) sample)) /\
  (fit_mle Exponential d sample = Ok e -> Forall (fun x => 0 <= x) sample -> 0 < Rsum sample -> exists l, attr e "lam" = Some (Fin l) /\
     forall lam, 0 < lam -> likelihood (exponential_pdf lam) sample <= likelihood (exponential_pdf l) sample) /\
  (fit_mle Laplace d sample = Ok e -> GeoProps.sorts sort -> exists m s, attr e "mu" = Some (Fin m) /\ attr e "b" = Some (Fin s) /\
     (0 < s -> forall mu b, 0 < b -> likelihood (laplace_pdf mu b) sample <= likelihood (laplace_pdf m s) sample)) /\
  (fit_mle Uniform d sample = Ok e -> exists l u, attr e "lower" = Some (Fin l) /\ attr e "upper" = Some (Fin u) /\
     (l < u -> forall a b, a < b -> likelihood (uniform_pdf a b) sample <= likelihood (uniform_pdf l u) sample)).
Proof.
  intros d sample e N. unfold fit_mle, SampleModel.fit_mle.
  repeat split; intro H.
  - cbn [update] in H. apply Ok_eq in H. subst e. destruct (normal_mle sample) as [m s] eqn:E. exists m, s.
    split; [own|]. split; [own|]. intros Hs mu sigma S. eapply C51_normal; eauto.
  - intro F. cbn [update] in H. apply Ok_eq in H. subst e. destruct (lognormal_mle sample) as [m s] eqn:E. exists m, s.
    split; [own|]. split; [own|]. intros Hs mu sigma S. eapply C51_lognormal; eauto.
  - intro F. cbn [update] in H. apply Ok_eq in H. subst e. destruct (logitnormal_mle sample) as [m s] eqn:E. exists m, s.
    split; [own|]. split; [own|]. intros Hs mu sigma S. eapply C51_logitnormal; eauto.
  - intro F. cbn [update] in H. apply Ok_eq in H. subst e. exists (halfnormal_mle sample).
    split; [own|]. intros Hs sigma S. apply C51_halfnormal; auto.
  - intros F P. cbn [update] in H. apply Ok_eq in H. subst e. exists (exponential_mle sample).
    split; [own|]. intros lam S. apply C51_exponential; auto.
  - intro F. cbn [update] in H. apply Ok_eq in H. subst e. destruct (laplace_mle sort sample) as [m s] eqn:E. exists m, s.
    split; [own|]. split; [own|]. intros Hs mu sigma S. eapply C51_laplace; eauto.
  - apply bind_ok in H. destruct H as ([l u] & E & H). cbn [update] in H. apply Ok_eq in H. subst e. exists l, u.
    split; [own|]. split; [own|]. intros LU a b AB. eapply C51_uniform; eauto.
Qed.

(* ------------------------------------------------------------ fits that fail *)
(** The families whose starting point is found by searching for the mean and the deviation. *)
Definition searched_start (f : family) : bool :=
  match f with
  | BetaBinomial | DiscreteWeibull | Kumaraswamy | LogLogistic | NegativeBinomial | SkewNormal | SkewStudentT
  | ZeroInflatedBinomial | ZeroInflatedNegativeBinomial | ZeroInflatedPoisson => true
  | _ => false
  end.

Lemma get_fixed_all {A} (att : string -> option A) ns : (forall k, In k ns -> att k <> None) ->
  forall i, fst (get_fixed att i ns) = [].
Proof.
  induction ns as [|k r IH]; intros H i; [reflexivity|]. cbn [get_fixed].
  specialize (IH (fun k K => H k (or_intror K)) (S i)). destruct (get_fixed att (S i) r) as [u v]. cbn [fst] in IH. subst u.
  destruct (att k) eqn:E; [reflexivity|]. exfalso. exact (H k (or_introl eq_refl) E).
Qed.

Lemma default_update f d : searched_start f = true -> exists d', update f d (map (fun p => Some (Fin (snd p))) (init_vals f)) = Ok d'.
Proof.
  intro H. destruct f; try discriminate H; cbn [init_vals map snd update]; try (eexists; reflexivity);
    unfold betabinomial_update, zib_update; cbn [np_int64 bind]; eexists; reflexivity.
Qed.

Lemma no_free_parameters f d m s : searched_start f = true -> (forall k, In k (names d) -> attr d k <> None) ->
  optimize_mean_sigma ptd_ig mean_of std_of least_squares f d m s None = Err ValueError.
Proof.
  intros HS HA. unfold optimize_mean_sigma, mean_sigma_start, get_fixed_params.
  pose proof (get_fixed_all (attr d) (names d) HA 0) as E. destruct (get_fixed (attr d) 0 (names d)) as [idx fx]. cbn [fst] in E. subst idx.
  destruct (default_update f d HS) as (d' & U). rewrite U. cbn [bind map]. unfold free_bounds. cbn [map].
  destruct f; try discriminate HS; reflexivity.
Qed.

(** FINDING. Ten families cannot be fitted when all their parameters have values: the search for their starting point is
    left with nothing to search for and scipy rejects the empty bounds. Fitting the same objects to a second sample, or
    passing mle a fully specified BetaBinomial, raises ValueError, although mle documents that it fits all parameters. *)
Theorem C73_refit_refuted : forall f d sample, searched_start f = true -> (forall k, In k (names d) -> attr d k <> None) ->
  fit_mle f d sample = Err ValueError.
Proof.
  intros f d sample HS HA.
  assert (HL : forall d, (forall k, In k (names d) -> attr d k <> None) -> likelihood_fit f d sample = Err ValueError).
  { intros d0 HA0. unfold likelihood_fit, SampleModel.likelihood_fit. destruct (mean_and_std sample) as [m s].
    unfold SampleModel.moments_fit. destruct f; try discriminate HS; cbn [fit_moments SampleModel.search_moments];
      try (rewrite (no_free_parameters _ d0 m s HS HA0); reflexivity).
    destruct (attr d0 "alpha") eqn:E.
    - rewrite (no_free_parameters _ d0 m s HS HA0). reflexivity.
    - rewrite no_free_parameters; [reflexivity|exact HS|]. intros k Hk. unfold setA. cbn [attr].
      destruct (String.eqb k "alpha"); [discriminate|apply HA0, Hk]. }
  unfold fit_mle, SampleModel.fit_mle. destruct f; try discriminate HS; try (apply HL, HA).
  apply HL. intros k Hk. unfold setA. cbn [attr]. destruct (String.eqb k "alpha"); [discriminate|apply HA, Hk].
Qed.

(** FINDING. A SkewNormal cannot be fitted to a sample whose skewness is beyond one in size (an exponential sample has
    skewness two): the shape it starts from is the root of a negative number, and scipy rejects the start. The hypothesis
    says that the mean of a SkewNormal whose shape is not a number is not a number. *)
Theorem C73_skewed_refuted : forall d sample, construct ptd_ig SkewNormal (fun _ => None) = Ok d -> skew sample ^ 2 > 1 ->
  (forall mu sigma, mean_of SkewNormal [mu; sigma; Some NaN] = NaN) ->
  fit_mle SkewNormal d sample = Err ValueError.
Proof.
  intros d sample C HS HM. cbn in C. injection C as <-.
  unfold fit_mle, SampleModel.fit_mle.
  assert (E : xdiv (Fin (skew sample)) (xhalf (Fin (1 - skew sample ^ 2))) = NaN).
  { unfold xhalf. replace (Rltb (1 - skew sample ^ 2) 0) with true by (symmetry; apply Rltb_true; lra). reflexivity. }
  rewrite E. unfold SampleModel.likelihood_fit. destruct (mean_and_std sample) as [m s].
  unfold SampleModel.moments_fit. cbn [fit_moments SampleModel.search_moments].
  cbn -[optimize_mean_sigma]. unfold optimize_mean_sigma.
  match goal with |- context [mean_sigma_start SkewNormal ?x None] => set (d := x) end.
  assert (ST : exists idx fx x0, mean_sigma_start SkewNormal d None = Ok (idx, fx, x0) /\ idx = [0; 1]%nat /\ fx = [NaN] /\
                 map (fun v => default v NaN) x0 = [Fin 0; Fin 1]).
  { eexists. eexists. eexists. split; [cbn; reflexivity|]. auto. }
  destruct ST as (idx & fx & x0 & -> & -> & -> & X). cbn [bind]. rewrite X. clear X x0.
  unfold call_least_squares.
  destruct (match (if is_hypergeometric SkewNormal then None else Some (free_bounds SkewNormal d [0%nat; 1%nat])) with
            | None => true | Some [] => false | Some ((_ :: _) as bs) => forallb2 inside [Fin 0; Fin 1] bs end); [|reflexivity].
  cbn [negb].
  assert (LN : mean_sigma_loss ptd_ig mean_of std_of SkewNormal d [0%nat; 1%nat] [NaN] m s [Fin 0; Fin 1] = NaN).
  { unfold mean_sigma_loss. set (r := bind _ _).
    assert (R : exists e, r = Ok e /\ exists a b, values SkewNormal e = [a; b; Some NaN]) by (eexists; split; [cbn; reflexivity|]; cbn; eauto).
    destruct R as (e & -> & a & b & V). rewrite V, HM. reflexivity. }
  rewrite LN. reflexivity.
Qed.

(** The likelihood in the loss: if the log-density at each value of the sample is a number, minus their sum. *)
Theorem C73_loss_is_likelihood : forall f vals (lp : R -> R) sample, (forall x, In x sample -> logpdf f vals x = Fin (lp x)) ->
  neg_loglik (logpdf f) vals sample = Fin (- Rsum (map lp sample)).
Proof.
  intros f vals lp sample H. unfold neg_loglik, xsum.
  assert (G : forall a, fold_left xadd (map (logpdf f vals) sample) (Fin a) = Fin (a + Rsum (map lp sample))).
  { induction sample as [|x sample IH]; intro a; cbn [map fold_left]; [rewrite Rsum_nil, Rplus_0_r; reflexivity|].
    rewrite H by (left; reflexivity). cbn [xadd]. rewrite IH by (intros; apply H; right; assumption).
    rewrite Rsum_cons. f_equal. ring. }
  rewrite G. cbn [xneg]. f_equal. ring.
Qed.

(** What becomes of one candidate. If the sample is within its support, or if its ends are parameters that mle takes from
    the sample (BetaScaled and TruncatedNormal), it is fitted and its loss is minus the log-likelihood plus the
    corrected count of its parameters, k + k (k + 1) / (n - k - 1). Otherwise it is left as it was, with an infinite loss. *)
Theorem C73_candidate : forall f d sample e loss, fit_one f d sample = Ok (e, loss) ->
  exists lo up, In lo sample /\ In up sample /\ (forall x, In x sample -> lo <= x <= up) /\
  let n := IZR (Z.of_nat (List.length sample)) in let k := IZR (Z.of_nat (List.length (params e))) in
  (In f [BetaScaled; TruncatedNormal] -> exists d0,
     attr d0 "lower" = Some (Fin lo) /\ attr d0 "upper" = Some (Fin up) /\ supp d0 = (Fin lo, Fin up) /\
     (forall x, x <> "lower" -> x <> "upper" -> attr d0 x = attr d x) /\ fit_mle f d0 sample = Ok e) /\
  (~ In f [BetaScaled; TruncatedNormal] -> xleb (fst (supp d)) (Fin lo) = true -> xleb (Fin up) (snd (supp d)) = true ->
     fit_mle f d sample = Ok e) /\
  (In f [BetaScaled; TruncatedNormal] \/ (xleb (fst (supp d)) (Fin lo) = true /\ xleb (Fin up) (snd (supp d)) = true) ->
     loss = xadd (neg_loglik (logpdf f) (values f e) sample) (Fin (k + (k + 1) * k / (n - k - 1)))) /\
  (~ In f [BetaScaled; TruncatedNormal] -> xleb (fst (supp d)) (Fin lo) = false \/ xleb (Fin up) (snd (supp d)) = false ->
     e = d /\ loss = PInf).
Proof.
  intros f d sample e loss H. unfold fit_one, SampleModel.fit_one in H.
  apply bind_ok in H. destruct H as (lo & L & H). apply bind_ok in H. destruct H as (up & U & H).
  destruct (np_min_spec _ _ L) as [L1 L2]. destruct (np_max_spec _ _ U) as [U1 U2].
  exists lo, up. split; [exact L1|]. split; [exact U1|]. split; [intros x Hx; split; [apply L2, Hx|apply U2, Hx]|]. intros n k.
  assert (PEN : forall c, get_penalization (Z.of_nat (List.length sample)) (Z.of_nat (List.length (params e))) = Ok c -> c = k + (k + 1) * k / (n - k - 1)).
  { intros c C. unfold get_penalization in C. destruct (Z.eqb _ 0); [discriminate|]. injection C as <-. unfold k, n.
    rewrite mult_IZR, plus_IZR, minus_IZR, plus_IZR, opp_IZR. f_equal. unfold Rdiv. f_equal. f_equal. ring. }
  assert (BND : bounded_by_sample f = true <-> In f [BetaScaled; TruncatedNormal]) by (destruct f; cbn; intuition (discriminate || congruence)).
  assert (REFL : forall x, xleb (Fin x) (Fin x) = true) by (intro x; apply xleb_fin; lra).
  destruct (bounded_by_sample f) eqn:B.
  - assert (BI : In f [BetaScaled; TruncatedNormal]) by (apply BND; reflexivity).
    unfold check_endpoints_silent in H. cbn [update_bounds setS supp] in H. rewrite !REFL in H. cbn [andb] in H.
    apply bind_ok in H. destruct H as (e0 & M & H). apply bind_ok in H. destruct H as (c & C & H). injection H as -> <-.
    rewrite (PEN c C). split; [intros _|split; [|split; [reflexivity|]]].
    + exists (update_bounds d lo up). repeat split; try exact M. intros x N1 N2. unfold update_bounds, setA, setS. cbn [attr].
      destruct (String.eqb x "upper") eqn:E1; [apply String.eqb_eq in E1; congruence|].
      destruct (String.eqb x "lower") eqn:E2; [apply String.eqb_eq in E2; congruence|reflexivity].
    + intros N. exfalso. exact (N BI).
    + intros N. exfalso. exact (N BI).
  - assert (BI : ~ In f [BetaScaled; TruncatedNormal]) by (intro K; apply BND in K; discriminate).
    unfold check_endpoints_silent in H. destruct (supp d) as [sl su]. cbn [fst snd].
    destruct (xleb sl (Fin lo) && xleb (Fin up) su) eqn:K.
    + apply bind_ok in H. destruct H as (e0 & M & H). apply bind_ok in H. destruct H as (c & C & H). injection H as -> <-.
      rewrite (PEN c C). apply andb_true_iff in K. destruct K as [K1 K2].
      split; [intro N; exfalso; exact (BI N)|]. split; [intros; exact M|]. split; [reflexivity|].
      intros _ [N|N]; congruence.
    + injection H as <- <-. apply andb_false_iff in K.
      split; [intro N; exfalso; exact (BI N)|]. split; [intros _ A1 A2; destruct K; congruence|].
      split; [intros [N|[A1 A2]]; [exfalso; exact (BI N)|destruct K; congruence]|]. auto.
Qed.

(** FINDING. A distribution with bounds among its parameters, once fitted, keeps the support of that sample. A second fit
    of the same object to values beyond it leaves it as it was, with an infinite loss: still frozen, so mle gives no
    warning, and with the parameters of the old sample. *)
Theorem C73_stale_support_refuted : forall d sample e loss later y, fit_one Uniform d sample = Ok (e, loss) -> loss <> PInf ->
  In y later -> (forall x, In x sample -> x < y) ->
  frozen e = true /\ fit_one Uniform e later = Ok (e, PInf).
Proof.
  intros d sample e loss later y H NL HY HX. unfold fit_one, SampleModel.fit_one in *. cbn [bounded_by_sample] in *.
  apply bind_ok in H. destruct H as (lo & L & H). apply bind_ok in H. destruct H as (up & U & H).
  destruct (check_endpoints_silent (supp d) (Fin lo) (Fin up)); [|injection H as <- <-; congruence].
  apply bind_ok in H. destruct H as (e0 & M & H). apply bind_ok in H. destruct H as (c & _ & H). injection H as <- _.
  unfold SampleModel.fit_mle, uniform_mle in M. rewrite L, U in M. cbn [bind fst snd update] in M. injection M as <-.
  split; [reflexivity|].
  destruct later as [|z later]; [destruct HY|].
  destruct (np_max_spec sample up U) as [IU _].
  assert (K : exists x_max, np_max (z :: later) = Ok x_max) by (eexists; reflexivity). destruct K as (x_max & K).
  destruct (np_max_spec _ _ K) as [_ G]. rewrite K.
  assert (K' : exists x_min, np_min (z :: later) = Ok x_min) by (eexists; reflexivity). destruct K' as (x_min & ->). cbn [bind].
  unfold check_endpoints_silent. cbn [uniform_update setS supp].
  replace (xleb (Fin x_max) (Fin up)) with false; [rewrite andb_false_r; reflexivity|].
  symmetry. destruct (xleb (Fin x_max) (Fin up)) eqn:Q; [|reflexivity]. apply xleb_fin in Q.
  specialize (G y HY). specialize (HX up IU). lra.
Qed.

(* ------------------------------------------------------------ searches that cannot move *)
(** FINDING. Counts cannot be fitted: the number of trials of a BetaBinomial or a ZeroInflatedBinomial is cut to an
    integer before the likelihood is computed, so the likelihood is the same at n and at every number up to n + 1. The
    differences from which the optimiser estimates its direction (steps of about 1e-8) are zero, and n stays where it
    started, at the default. *)
Theorem C73_counts_refuted : forall d sample (n : nat) h x y, 0 <= h < 1 ->
  negll logpdf BetaBinomial d sample [x; y; Fin (INR n + h)] = negll logpdf BetaBinomial d sample [x; y; Fin (INR n)] /\
  negll logpdf ZeroInflatedBinomial d sample [x; Fin (INR n + h); y] = negll logpdf ZeroInflatedBinomial d sample [x; Fin (INR n); y].
Proof.
  intros d sample n h x y H.
  assert (T : forall z, 0 <= z < 1 -> truncate (INR n + z) = INR n).
  { intros z Hz. pose proof (pos_INR n) as P. unfold truncate.
    replace (Rltb (INR n + z) 0) with false by (symmetry; apply Rltb_false; lra).
    rewrite INR_IZR_INZ in P |- *. apply f_equal. apply Int_part_unique. lra. }
  pose proof (T 0 ltac:(lra)) as T0. rewrite Rplus_0_r in T0.
  split; unfold negll; cbn [List.length canonical Nat.eqb negb map update]; unfold betabinomial_update, zib_update;
    cbn [np_int64 bind]; rewrite (T h H), T0; reflexivity.
Qed.

(* ------------------------------------------------------------ the searches for given moments *)
(** How far the moments of an instance are from the ones asked for. *)
Definition distance (f : family) (d : dist) (m s : R) : xr :=
  xadd (xabs (xsub (mean_of f (values f d)) (Fin m))) (xabs (xsub (std_of f (values f d)) (Fin s))).
(** The instance that the user gets with these values of the parameters. *)
Definition built (f : family) (ys : list R) (d : dist) : Prop :=
  List.length ys = List.length (canonical f) /\ construct ptd_ig f (dict_get (combine (canonical f) (map Fin ys))) = Ok d.
Definition search_bounds (f : family) : option (list bound) :=
  match f with HyperGeometric => None | _ => Some (params_support f (canonical f) None) end.
Definition allowed (f : family) (ys : list R) : Prop :=
  List.length ys = List.length (canonical f) /\ forall bs, search_bounds f = Some bs -> all_inside (map Fin ys) bs.
(** The families that are searched without a guess, with all their parameters unset. *)
Definition free_search (f : family) : bool :=
  match f with
  | BetaBinomial | DiscreteWeibull | HyperGeometric | Kumaraswamy | LogLogistic | NegativeBinomial | SkewStudentT
  | ZeroInflatedBinomial | ZeroInflatedNegativeBinomial | ZeroInflatedPoisson => true
  | _ => false
  end.
(** What is asked of scipy's least_squares: given a function that is this distance, it tries finite vectors and returns one
    within the bounds that is not beaten there. *)
Definition finds_closest (f : family) (m s : R) : Prop := forall fn x0,
  (forall ys d, built f ys d -> fn (map Fin ys) = distance f d m s) ->
  exists ys, snd (least_squares fn x0 (search_bounds f)) = map Fin ys /\ allowed f ys /\
    (forall v, In v (fst (least_squares fn x0 (search_bounds f))) -> exists zs, v = map Fin zs /\ List.length zs = List.length (canonical f)) /\
    forall zs, allowed f zs -> xleb (fn (map Fin ys)) (fn (map Fin zs)) = true.

Lemma built_total f ys : free_search f = true -> List.length ys = List.length (canonical f) -> exists d, built f ys d.
Proof.
  intros F L. destruct f; try discriminate F; cbn in L; destruct ys as [|y1 [|y2 [|y3 [|y4 [|y5 yr]]]]]; try discriminate L;
    try (eexists; (split; [reflexivity|]); cbn; reflexivity).
  assert (P : exists v, pyand (Some (Fin y1)) (Some (Fin y2)) = Some v) by (unfold pyand; cbn; destruct (Reqb y1 0); eauto).
  destruct P as (v & P). eexists. split; [reflexivity|]. cbn -[pyand]. unfold kumaraswamy_param. rewrite P. reflexivity.
Qed.
Lemma free_indices f d : free_search f = true -> construct ptd_ig f (fun _ => None) = Ok d ->
  names d = canonical f /\ get_fixed_params (attr d) (names d) = (seq 0 (List.length (canonical f)), []) /\ attr d "N" = None.
Proof. intros F C. destruct f; try discriminate F; cbn in C; injection C as <-; repeat split. Qed.
Lemma free_params f d ys : free_search f = true -> construct ptd_ig f (fun _ => None) = Ok d -> List.length ys = List.length (canonical f) ->
  get_params (names d) (List.length (names d)) (map Fin ys) (seq 0 (List.length (canonical f))) [] = Ok (combine (canonical f) (map Fin ys)).
Proof.
  intros F C L. rewrite (proj1 (free_indices f d F C)).
  destruct f; try discriminate F; cbn in L; destruct ys as [|y1 [|y2 [|y3 [|y4 [|y5 yr]]]]]; try discriminate L; reflexivity.
Qed.
Lemma truncate_nat n : truncate (IZR (Z.of_nat n)) = IZR (Z.of_nat n).
Proof.
  unfold truncate. rewrite Rltb_false by (apply IZR_le; lia). f_equal. apply Int_part_unique. lra.
Qed.
Lemma start_default f d : free_search f = true -> construct ptd_ig f (fun _ => None) = Ok d ->
  mean_sigma_start f d None = Ok (seq 0 (List.length (canonical f)), [], map (fun p => Some (Fin (snd p))) (init_vals f)).
Proof.
  intros F C. unfold mean_sigma_start. rewrite (proj1 (proj2 (free_indices f d F C))).
  pose proof (truncate_nat 10) as T10. pose proof (truncate_nat 50) as T50. pose proof (truncate_nat 20) as T20. cbn in T10, T50, T20.
  destruct f; try discriminate F; cbn in C; injection C as <-; cbn -[truncate]; try reflexivity;
    rewrite ?T10, ?T50, ?T20; reflexivity.
Qed.
Lemma default_inside f d : free_search f = true -> construct ptd_ig f (fun _ => None) = Ok d ->
  match (if is_hypergeometric f then None else Some (free_bounds f d (seq 0 (List.length (canonical f))))) with
  | None => true | Some [] => false
  | Some bs => forallb2 inside (map (fun v => default v NaN) (map (fun p => Some (Fin (snd p))) (init_vals f))) bs end = true /\
  (if is_hypergeometric f then None else Some (free_bounds f d (seq 0 (List.length (canonical f))))) = search_bounds f.
Proof.
  intros F C. pose proof eps_small as He. destruct (free_indices f d F C) as (N & _ & A).
  unfold free_bounds. rewrite N, A.
  destruct f; try discriminate F; (split; [|reflexivity]); try reflexivity; cbn -[eps]; unfold inside; cbn -[eps];
    unfold xleb; cbn -[eps]; rewrite ?Rltb_true by lra; reflexivity.
Qed.
(** A new instance of these families fitted to a mean and a deviation: if the default values have finite moments, the fit
    succeeds, and within the bounds of its parameters no instance of the family is closer. *)
Theorem C73_closest_moments : forall f d m s, free_search f = true -> construct ptd_ig f (fun _ => None) = Ok d -> finds_closest f m s ->
  (forall e, built f (map snd (init_vals f)) e -> xisfinite (distance f e m s) = true) ->
  exists e ys, moments_fit f d m s = Ok e /\ built f ys e /\ allowed f ys /\
    forall zs e', allowed f zs -> built f zs e' -> xleb (distance f e m s) (distance f e' m s) = true.
Proof.
  intros f d m s F C B D.
  assert (M : moments_fit f d m s = optimize_mean_sigma ptd_ig mean_of std_of least_squares f d m s None) by (destruct f; try discriminate F; reflexivity).
  rewrite M. unfold optimize_mean_sigma. rewrite (start_default f d F C). cbn [bind].
  destruct (default_inside f d F C) as [I S]. unfold call_least_squares. rewrite I, S. cbn [negb].
  set (fn := mean_sigma_loss ptd_ig mean_of std_of f d (seq 0 (List.length (canonical f))) [] m s).
  assert (FN : forall ys e, built f ys e -> fn (map Fin ys) = distance f e m s).
  { intros ys e [L E]. unfold fn, mean_sigma_loss. rewrite (free_params f d ys F C L). cbn [bind]. rewrite E. reflexivity. }
  assert (X0 : map (fun v => default v NaN) (map (fun p => Some (Fin (snd p))) (init_vals f)) = map Fin (map snd (init_vals f)))
    by (rewrite !map_map; reflexivity). rewrite X0.
  assert (L0 : List.length (map snd (init_vals f)) = List.length (canonical f)) by (destruct f; try discriminate F; reflexivity).
  destruct (built_total f _ F L0) as (e0 & E0). rewrite (FN _ _ E0), (D e0 E0). cbn [negb bind].
  destruct (B fn (map Fin (map snd (init_vals f))) FN) as (ys & Y & A & T & BEST).
  destruct (least_squares fn _ (search_bounds f)) as [tried x]. cbn [fst snd] in *. subst x.
  destruct (built_total f ys F (proj1 A)) as (e & E). exists e, ys. split; [|split; [exact E|split; [exact A|]]].
  - clear - T E F C A ptd_ig. induction tried as [|v tried IH]; cbn [install_all].
    + rewrite (free_params f d ys F C (proj1 A)). cbn [bind]. exact (proj2 E).
    + destruct (T v (or_introl eq_refl)) as (zs & -> & L). rewrite (free_params f d zs F C L). cbn [bind].
      destruct (built_total f zs F L) as (e1 & E1). rewrite (proj2 E1). cbn [bind]. apply IH. intros w W. apply T. right. exact W.
  - intros zs e' Z E'. rewrite <- (FN _ _ E), <- (FN _ _ E'). apply BEST. exact Z.
Qed.

(** The fit of VonMises: both parameters come from the sample brought to one turn. *)
Theorem C73_vonmises : forall d sample e, fit_mle VonMises d sample = Ok e ->
  exists data m k, Forall2 (fun x y => 0 <= y < 2 * PI /\ exists z : Z, x = y + 2 * PI * IZR z) sample data /\
    find_kappa i0e i1e root_scalar data (circmean data) = Ok k /\
    attr e "kappa" = Some (Fin k) /\ attr e "mu" = Some (Fin m) /\ - PI <= m < PI /\ exists z : Z, m = circmean data + 2 * PI * IZR z.
Proof.
  intros d sample e H. unfold fit_mle, SampleModel.fit_mle in H. apply bind_ok in H. destruct H as (k & K & H).
  set (data := map (fun x => np_mod x (2 * PI)) sample) in *. pose proof PI_RGT_0 as P.
  unfold vonmises_mle in H. fold data in H. cbn in H. injection H as <-.
  exists data. do 2 eexists. split; [|split; [exact K|]].
  - unfold data. clear. pose proof PI_RGT_0 as P. induction sample as [|x sample IH]; constructor; [|exact IH].
    destruct (np_mod_spec x (2 * PI) ltac:(lra)) as [B [z Z]]. split; [exact B|]. exists (- z)%Z. rewrite Z, opp_IZR. ring.
  - split; [reflexivity|]. split; [reflexivity|]. destruct (np_mod_spec (circmean data + PI) (2 * PI) ltac:(lra)) as [B [z Z]].
    split; [lra|]. exists z. rewrite Z. ring.
Qed.

(* ------------------------------------------------------------ the concentration of VonMises *)
(** The concentration solves the likelihood equation, if the mean resultant is positive; otherwise it is the smallest
    positive number. The hypothesis says that what scipy returns is a root within the bracket. *)
Theorem C73_kappa : forall data mu k,
  (forall g lo up x, root_scalar g (lo, up) = Ok x -> lo <= x <= up /\ g x = 0) ->
  find_kappa i0e i1e root_scalar data mu = Ok k ->
  0 < k /\
  (np_mean (map (fun x => cos (mu - x)) data) > 0 -> i1e k / i0e k = np_mean (map (fun x => cos (mu - x)) data)) /\
  (np_mean (map (fun x => cos (mu - x)) data) <= 0 -> k = / 2 ^ 1022).
Proof.
  intros data mu k HR H. unfold find_kappa in H. set (r := np_mean _) in *.
  assert (T : 0 < tiny) by (unfold tiny; apply Rinv_0_lt_compat, pow_lt; lra).
  unfold Rltb in H. destruct (Rlt_dec 0 r) as [E|E].
  - apply HR in H. destruct H as [[B _] Z]. split; [lra|]. split; [intro; lra|intro; lra].
  - injection H as <-. split; [exact T|]. split; [intro; lra|reflexivity].
Qed.
End Fits.

(* ------------------------------------------------------------ samples with several rows *)
Section Rows.
Variables (D Row V : Type).
Variable fit_row : D -> Row -> res D.
Variable val : D -> string -> V.
Variable row_loss : D -> Row -> R.
Variable ks : list string.
Let dict_of (d : D) := map (fun k => (k, val d k)) ks.

Lemma collect_known g k v l : NoDup l -> In k l ->
  collect V (map (fun k => (k, g k)) l) k v = map (fun k' => (k', if String.eqb k k' then (g k' ++ [v])%list else g k')) l.
Proof.
  induction l as [|a l IH]; intros ND HI; [destruct HI|]. cbn [map collect]. inversion ND as [|? ? NI ND']; subst.
  destruct (String.eqb k a) eqn:E.
  - f_equal. apply String.eqb_eq in E. subst a. apply map_ext_in. intros k' Hk.
    destruct (String.eqb k k') eqn:E'; [apply String.eqb_eq in E'; subst; contradiction|reflexivity].
  - f_equal. apply IH; [exact ND'|]. destruct HI as [->|HI]; [rewrite String.eqb_refl in E; discriminate|exact HI].
Qed.
Lemma collect_new g k v l : ~ In k l -> collect V (map (fun k => (k, g k)) l) k v = (map (fun k => (k, g k)) l ++ [(k, [v])])%list.
Proof.
  induction l as [|a l IH]; intros NI; [reflexivity|]. cbn [map collect app].
  destruct (String.eqb k a) eqn:E; [apply String.eqb_eq in E; subst; exfalso; apply NI; left; reflexivity|].
  f_equal. apply IH. intro K. apply NI. right. exact K.
Qed.

Definition step (d : D) acc (l : list string) := fold_left (fun acc kv => collect V acc (fst kv) (snd kv)) (map (fun k => (k, val d k)) l) acc.
Lemma first_row d : forall done todo, NoDup (done ++ todo) ->
  step d (map (fun k => (k, [val d k])) done) todo = map (fun k => (k, [val d k])) (done ++ todo).
Proof.
  intros done todo. revert done. induction todo as [|k r IH]; intros done ND; [cbn; rewrite app_nil_r; reflexivity|].
  unfold step. cbn [map fold_left fst snd]. rewrite (collect_new (fun k => [val d k])).
  - change ([(k, [val d k])]) with (map (fun k => (k, [val d k])) [k]). rewrite <- map_app.
    specialize (IH (done ++ [k])%list). unfold step in IH. rewrite IH; [rewrite <- app_assoc; reflexivity|].
    rewrite <- app_assoc. exact ND.
  - intro K. apply NoDup_remove_2 in ND. apply ND, in_or_app. left. exact K.
Qed.
Lemma next_row d : forall todo g, NoDup todo -> (forall k, In k todo -> In k ks) -> NoDup ks ->
  step d (map (fun k => (k, g k)) ks) todo
  = map (fun k => (k, if existsb (String.eqb k) todo then (g k ++ [val d k])%list else g k)) ks.
Proof.
  induction todo as [|k r IH]; intros g ND HI NK; [reflexivity|].
  unfold step. cbn [map fold_left fst snd]. rewrite collect_known; [|exact NK|apply HI; left; reflexivity].
  inversion ND as [|? ? NI ND']; subst.
  specialize (IH (fun k' => if String.eqb k k' then (g k' ++ [val d k])%list else g k') ND' (fun k K => HI k (or_intror K)) NK).
  unfold step in IH. rewrite IH. apply map_ext. intro k'. cbn [existsb].
  destruct (String.eqb k' k) eqn:E.
  - apply String.eqb_eq in E. subst k'. rewrite String.eqb_refl. cbn [orb].
    destruct (existsb (String.eqb k) r) eqn:X; [|reflexivity]. exfalso. apply existsb_exists in X. destruct X as (z & Z & W).
    apply String.eqb_eq in W. subst z. contradiction.
  - rewrite String.eqb_sym, E. reflexivity.
Qed.
Lemma collect_columns d ds : NoDup ks ->
  collect_all D V dict_of (d :: ds) = map (fun k => (k, map (fun e => val e k) (d :: ds))) ks.
Proof.
  intro NK. unfold collect_all. cbn [fold_left].
  replace (fold_left (fun acc kv => collect V acc (fst kv) (snd kv)) (dict_of d) []) with (map (fun k => (k, map (fun e => val e k) [d])) ks)
    by (symmetry; exact (first_row d [] ks NK)).
  change (d :: ds) with ([d] ++ ds)%list. generalize [d] as pre. induction ds as [|e ds IH]; intro pre; [rewrite app_nil_r; reflexivity|].
  cbn [fold_left].
  replace (pre ++ e :: ds)%list with ((pre ++ [e]) ++ ds)%list by (rewrite <- app_assoc; reflexivity).
  rewrite <- (IH (pre ++ [e])%list). f_equal.
  pose proof (next_row e ks (fun k => map (fun e => val e k) pre) NK (fun k K => K) NK) as N. unfold step in N.
  unfold dict_of. rewrite N. apply map_ext_in. intros k Hk.
  replace (existsb (String.eqb k) ks) with true; [rewrite map_app; reflexivity|].
  symmetry. apply existsb_exists. exists k. split; [exact Hk|apply String.eqb_refl].
Qed.

Lemma fit_rows_spec d rows : forall acc ds total, fit_rows D Row fit_row row_loss d rows acc = Ok (ds, total) ->
  Forall2 (fun s e => fit_row d s = Ok e) rows ds /\
  total = acc + fold_right Rplus 0 (map (fun p => row_loss (fst p) (snd p)) (combine ds rows)).
Proof.
  induction rows as [|s r IH]; intros acc ds total H; cbn [fit_rows] in H.
  - injection H as <- <-. split; [constructor|cbn; lra].
  - apply bind_ok in H. destruct H as (e & F & H). apply bind_ok in H. destruct H as ([ds' t] & G & H). injection H as <- <-.
    destruct (IH _ _ _ G) as [A B]. split; [constructor; assumption|]. cbn [combine map fold_right fst snd]. rewrite B. lra.
Qed.

(** A sample with several rows: every row is fitted on its own by a copy of the candidate, the parameters of the result
    are the arrays of the fitted values in the order of the rows, and its loss is the sum of the losses of the rows plus
    the penalty. *)
Theorem C73_rows : forall n_params size d rows kw loss, NoDup ks -> rows <> [] ->
  fit_batch D Row V fit_row dict_of row_loss n_params size d rows = Ok (kw, loss) ->
  exists ds corr, Forall2 (fun s e => fit_row d s = Ok e) rows ds /\
    kw = map (fun k => (k, map (fun e => val e k) ds)) ks /\
    get_penalization size n_params = Ok corr /\
    loss = fold_right Rplus 0 (map (fun p => row_loss (fst p) (snd p)) (combine ds rows)) + corr.
Proof.
  intros n_params size d rows kw loss NK NE H. unfold fit_batch in H. apply bind_ok in H. destruct H as ([ds total] & F & H).
  apply bind_ok in H. destruct H as (corr & P & H). injection H as <- <-. destruct (fit_rows_spec d rows 0 ds total F) as [A B].
  exists ds, corr. split; [exact A|]. split; [|split; [exact P|rewrite B; lra]].
  destruct ds as [|e ds]; [inversion A; subst; congruence|]. apply collect_columns, NK.
Qed.
End Rows.

(* ------------------------------------------------------------ non-vacuity *)
(** An optimiser that stays within the bounds. *)
Example C73_stays_inside_possible : stays_inside (fun _ _ bs => ([], map (fun b => Fin (corner b)) bs)).
Proof.
  intros fn x0 bs v L [<-|[]]. destruct (honours_bounds_possible [] [] bs L) as (ys & E & B). exists ys. split; [exact E|exact B].
Qed.

(** The log-probability of a Bernoulli, and a sample of one success and one failure. *)
Definition bernoulli_logpdf (f : family) (v : list (option xr)) (x : R) : xr :=
  match v with
  | [Some (Fin p)] => if Rltb 0 p && Rltb p 1 then (if Reqb x 1 then Fin (ln p) else Fin (ln (1 - p))) else NInf
  | _ => NaN
  end.
Definition bernoulli_search (fn : list xr -> xr) (x0 : list (option xr)) (bs : list bound) : list (list xr) * list xr :=
  ([], [Fin (1 / 2)]).

Lemma bernoulli_loss d1 p : 0 < p < 1 ->
  negll bernoulli_logpdf Bernoulli d1 [1; 0] [Fin p] = Fin (- (0 + ln p + ln (1 - p))).
Proof.
  intro H. unfold negll, values. change (canonical Bernoulli) with ["p"]. cbn [List.length Nat.eqb negb map update].
  replace (attr (bernoulli_update d1 (Fin p)) "p") with (Some (Fin p)).
  2:{ unfold bernoulli_update. destruct (name_at _ 0 "p"); [reflexivity|]. destruct (name_at _ 0 "logit_p"); reflexivity. }
  unfold neg_loglik, xsum, bernoulli_logpdf. cbn [map].
  rewrite (Rltb_true 0 p), (Rltb_true p 1) by lra. cbn [andb].
  unfold Reqb. destruct (Req_EM_T 1 1) as [_|N]; [|congruence]. destruct (Req_EM_T 0 1) as [N|_]; [lra|]. reflexivity.
Qed.

Example C73_best_inhabited : finds_best bernoulli_logpdf bernoulli_search Bernoulli [1; 0] /\
  descends bernoulli_logpdf bernoulli_search Bernoulli [1; 0] /\
  (forall ig eg g so sk ci i0 i1 rs ri mo st ls, exists d e,
     construct ig Bernoulli (fun k => if String.eqb k "p" then Some (Fin (3 / 10)) else None) = Ok d /\
     fit_mle ig eg g so sk ci i0 i1 rs ri mo st bernoulli_logpdf ls bernoulli_search Bernoulli d [1; 0] = Ok e /\
     names e = canonical Bernoulli /\ attr e "p" = Some (Fin (1 / 2))) /\
  with_room Bernoulli (canonical Bernoulli) (fun _ => 3 / 10).
Proof.
  assert (BEST : forall d1 zs, all_inside (map Fin zs) (params_support Bernoulli (names d1) (attr d1 "N")) ->
    xleb (negll bernoulli_logpdf Bernoulli d1 [1; 0] [Fin (1 / 2)]) (negll bernoulli_logpdf Bernoulli d1 [1; 0] (map Fin zs)) = true).
  { intros d1 zs HB. pose proof (all_inside_length _ _ HB) as L. cbn in L. destruct zs as [|p [|? ?]]; try discriminate L.
    cbn [map params_support] in HB. inversion HB as [|? ? ? ? HB' _]; subst. clear HB. rename HB' into HB. unfold unit_bound, inside in HB. cbn [fst snd] in HB.
    apply andb_true_iff in HB. rewrite !xleb_fin in HB. pose proof eps_small as E.
    cbn [map]. destruct (Req_dec p 1) as [->|NE].
    { rewrite bernoulli_loss by lra. unfold negll, values. change (canonical Bernoulli) with ["p"].
      cbn [List.length Nat.eqb negb map update].
      replace (attr (bernoulli_update d1 (Fin 1)) "p") with (Some (Fin 1)).
      2:{ unfold bernoulli_update. destruct (name_at _ 0 "p"); [reflexivity|]. destruct (name_at _ 0 "logit_p"); reflexivity. }
      unfold neg_loglik, xsum, bernoulli_logpdf. cbn [map]. rewrite (Rltb_false 1 1) by lra. rewrite andb_false_r. reflexivity. }
    rewrite !bernoulli_loss by lra. apply xleb_fin.
    assert (K : ln p + ln (1 - p) <= ln (1 / 2) + ln (1 - 1 / 2)).
    { rewrite <- !ln_mult by lra. assert (Q : p * (1 - p) <= 1 / 2 * (1 - 1 / 2)) by (pose proof (Rle_0_sqr (p - 1 / 2)) as SQ; unfold Rsqr in SQ; nra).
      destruct (Rle_lt_or_eq_dec _ _ Q) as [Q'|Q']; [left; apply ln_increasing; [nra|exact Q']|right; rewrite Q'; reflexivity]. }
    lra. }
  assert (IN : forall d1, all_inside [Fin (1 / 2)] (params_support Bernoulli (names d1) (attr d1 "N"))).
  { intro d1. pose proof eps_small as E. constructor; [|constructor]. unfold unit_bound, inside. cbn [fst snd]. apply andb_true_iff. rewrite !xleb_fin. lra. }
  split; [|split; [|split]].
  - intros d1 _. exists [1 / 2]. split; [reflexivity|]. split; [apply IN|apply BEST].
  - intros d1 _. exists [1 / 2]. split; [reflexivity|]. split; [apply IN|]. intros zs _. apply BEST.
  - intros. eexists. eexists. split; [reflexivity|]. split; [reflexivity|]. split; reflexivity.
  - intros w Hw. specialize (Hw "p"). cbn beta in Hw. intros _. assert (K : - (1 / 10000) <= w "p" - 3 / 10 <= 1 / 10000).
    { revert Hw. unfold Rabs. destruct (Rcase_abs _); lra. }
    lra.
Qed.

(** A fully specified ZeroInflatedPoisson cannot be fitted, nor a SkewNormal to a sample of skewness two, and a Uniform
    fitted to [0, 1] is not refitted to [5, 6]. *)
Example C73_failures_inhabited : forall ig,
  (exists d, construct ig ZeroInflatedPoisson (fun k => if String.eqb k "psi" then Some (Fin (1 / 2)) else Some (Fin 3)) = Ok d /\
     forall k, In k (names d) -> attr d k <> None) /\
  (exists d, construct ig SkewNormal (fun _ => None) = Ok d) /\ (fun _ : list R => 2) [] ^ 2 > 1 /\
  (exists d e loss, construct ig Uniform (fun _ => None) = Ok d /\ loss <> PInf /\
     fit_one ig 0 (fun _ => NaN) (fun l => l) (fun _ => 0) (fun _ => 0) (fun x => x) (fun x => x) (fun _ _ => Err ValueError)
       (fun _ _ => (0, 0)) (fun _ _ => NaN) (fun _ _ => NaN) (fun _ _ _ => Fin 0) (fun _ _ _ => ([], [])) (fun _ _ _ => ([], []))
       Uniform d [0; 1; 0; 1] = Ok (e, loss)).
Proof.
  intro ig. split; [|split; [|split]].
  - eexists. split; [reflexivity|]. intros k [<-|[<-|[]]]; discriminate.
  - eexists. reflexivity.
  - lra.
  - eexists. eexists. eexists. split; [reflexivity|]. split; [|cbn; reflexivity]. discriminate.
Qed.

(** A root of the likelihood equation of a sample whose resultant is one half. *)
Definition one_root (g : R -> R) (b : R * R) : res R :=
  if Rleb (fst b) 1 && Rleb 1 (snd b) && Reqb (g 1) 0 then Ok 1 else Err ValueError.
Example C73_kappa_inhabited :
  (forall g lo up x, one_root g (lo, up) = Ok x -> lo <= x <= up /\ g x = 0) /\
  np_mean (map (fun x => cos (0 - x)) [PI / 3]) > 0 /\
  find_kappa (fun _ => 1) (fun k => k / 2) one_root [PI / 3] 0 = Ok 1.
Proof.
  assert (M : np_mean (map (fun x => cos (0 - x)) [PI / 3]) = 1 / 2).
  { unfold np_mean. cbn [map Rsum fold_right List.length INR]. rewrite Rminus_0_l, cos_neg, cos_PI3. unfold Rsum. cbn [fold_right fold_left]. lra. }
  split; [|split].
  - intros g lo up x H. unfold one_root, Rleb, Reqb in H. cbn [fst snd] in H.
    destruct (Rle_dec lo 1); [|discriminate]. destruct (Rle_dec 1 up); [|discriminate]. cbn [andb] in H.
    destruct (Req_EM_T (g 1) 0); [|discriminate]. injection H as <-. lra.
  - rewrite M. lra.
  - unfold find_kappa. rewrite M. rewrite (Rltb_true 0 (1 / 2)) by lra. unfold one_root, Rleb, Reqb. cbn [fst snd].
    assert (T : tiny <= 1).
    { unfold tiny. rewrite <- Rinv_1. apply Rinv_le_contravar; [lra|]. apply pow_R1_Rle. lra. }
    destruct (Rle_dec tiny 1); [|contradiction]. destruct (Rle_dec 1 (10 ^ 16)); [|lra]. cbn [andb].
    destruct (Req_EM_T (1 / 2 / 1 - 1 / 2) 0); [reflexivity|lra].
Qed.

(** Two rows fitted by their means. *)
Example C73_rows_inhabited :
  fit_batch (list (string * R)) (list R) R (fun _ s => Ok [("mu", nth 0 s 0); ("sigma", nth 1 s 0)])
    (fun d => map (fun k => (k, match find (fun p => String.eqb (fst p) k) d with Some p => snd p | None => 0 end)) ["mu"; "sigma"])
    (fun _ _ => 1) 2 4 [] [[1; 2]; [3; 4]]
  = Ok ([("mu", [1; 3]); ("sigma", [2; 4])], 0 + 1 + 1 + (2 + 6 / 1)).
Proof. reflexivity. Qed.

(** A search that finds the closest moments: a NegativeBinomial asked for 3 and 1, with a stand-in for its two moments. *)
Example C73_closest_inhabited : forall ig eg g rc d,
  let mean_of := fun (_ : family) vals => match vals with [Some x; _] => x | _ => NaN end in
  let std_of := fun (_ : family) vals => match vals with [_; Some x] => x | _ => NaN end in
  let ls := fun (_ : list xr -> xr) (_ : list xr) (_ : option (list bound)) => (@nil (list xr), [Fin 3; Fin 1]) in
  construct ig NegativeBinomial (fun _ => None) = Ok d ->
  finds_closest ig mean_of std_of ls NegativeBinomial 3 1 /\
  exists e, moments_fit ig eg g rc mean_of std_of ls NegativeBinomial d 3 1 = Ok e /\ attr e "mu" = Some (Fin 3) /\ attr e "alpha" = Some (Fin 1).
Proof.
  intros ig eg g rc d mean_of std_of ls C. pose proof eps_small as He.
  assert (BD : forall zs e, built ig NegativeBinomial zs e -> exists a b, zs = [a; b] /\ attr e "mu" = Some (Fin a) /\ attr e "alpha" = Some (Fin b) /\
                 distance mean_of std_of NegativeBinomial e 3 1 = Fin (Rabs (a - 3) + Rabs (b - 1))).
  { intros zs e [L E]. cbn in L. destruct zs as [|a [|b [|c zr]]]; try discriminate L. cbn in E. injection E as <-.
    exists a, b. repeat split. }
  assert (FC : finds_closest ig mean_of std_of ls NegativeBinomial 3 1).
  { intros fn x0 H. exists [3; 1]. split; [reflexivity|]. split; [|split].
    - split; [reflexivity|]. intros bs B. injection B as <-. constructor; [|constructor; [|constructor]]; unfold inside, xleb; cbn -[eps]; rewrite Rltb_true by lra; reflexivity.
    - intros v [].
    - intros zs [L _]. destruct (built_total ig NegativeBinomial [3; 1] eq_refl eq_refl) as (e1 & E1). destruct (built_total ig NegativeBinomial zs eq_refl L) as (e2 & E2).
      rewrite (H _ _ E1), (H _ _ E2). destruct (BD _ _ E1) as (a & b & Q & _ & _ & ->). injection Q as <- <-. destruct (BD _ _ E2) as (a & b & _ & _ & _ & ->).
      apply xleb_fin. replace (3 - 3) with 0 by ring. replace (1 - 1) with 0 by ring. rewrite Rabs_R0. pose proof (Rabs_pos (a - 3)). pose proof (Rabs_pos (b - 1)). lra. }
  split; [exact FC|].
  destruct (C73_closest_moments ig eg g rc mean_of std_of ls NegativeBinomial d 3 1 eq_refl C FC) as (e & ys & M & B & _ & BEST).
  - intros e E. destruct (BD _ _ E) as (a & b & _ & _ & _ & ->). reflexivity.
  - exists e. split; [exact M|]. destruct (built_total ig NegativeBinomial [3; 1] eq_refl eq_refl) as (e1 & E1).
    assert (AL : allowed NegativeBinomial [3; 1]).
    { split; [reflexivity|]. intros bs Q. injection Q as <-. constructor; [|constructor; [|constructor]]; unfold inside, xleb; cbn -[eps]; rewrite Rltb_true by lra; reflexivity. }
    specialize (BEST _ _ AL E1). destruct (BD _ _ B) as (a & b & _ & A1 & A2 & D1). destruct (BD _ _ E1) as (a1 & b1 & Q & _ & _ & D2). injection Q as <- <-.
    rewrite D1, D2 in BEST. apply xleb_fin in BEST. rewrite A1, A2. replace (3 - 3) with 0 in BEST by ring. replace (1 - 1) with 0 in BEST by ring. rewrite Rabs_R0 in BEST.
    pose proof (Rabs_pos (a - 3)) as P1. pose proof (Rabs_pos (b - 1)) as P2.
    assert (a = 3) by (destruct (Req_dec (a - 3) 0) as [Z|Z]; [lra|apply Rabs_pos_lt in Z; lra]).
    assert (b = 1) by (destruct (Req_dec (b - 1) 0) as [Z|Z]; [lra|apply Rabs_pos_lt in Z; lra]). subst. auto.
Qed.

Print Assumptions C73_all_parameters_estimated.
Print Assumptions C73_maximum_likelihood.
Print Assumptions C73_better_than_moments.
Print Assumptions C73_candidate.
Print Assumptions C73_closed_forms.
Print Assumptions C73_refit_refuted.
Print Assumptions C73_skewed_refuted.
Print Assumptions C73_stale_support_refuted.
Print Assumptions C73_counts_refuted.
Print Assumptions C73_kappa.
Print Assumptions C73_loss_is_likelihood.
Print Assumptions C73_rows.
Print Assumptions C73_closest_moments.
Print Assumptions C73_vonmises.
