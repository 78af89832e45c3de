(** C53: parameter bounds and the searches that use them. *)
From Coq Require Import List Bool String Reals Lra Lia.
From Verif Require Import Base XR FamModel FamSpec FamArith FamProofs FamReadback FamHistory FamProps OptModel SelProps BoundModel BoundSpec.
Import ListNotations.
Open Scope R_scope.
Open Scope string_scope.

Lemma eps_small : 0 < eps < 1 / 10000.
Proof. unfold eps. split; lra. Qed.

Lemma inside_fin x lo up : inside (Fin x) (Fin lo, Some (Fin up)) = true <-> lo <= x <= up.
Proof. unfold inside. cbn [fst snd]. rewrite andb_true_iff, !xleb_fin. tauto. Qed.
Lemma inside_pos x lo : inside (Fin x) (Fin lo, Some PInf) = true <-> lo <= x.
Proof. unfold inside. cbn [fst snd]. rewrite andb_true_iff, !xleb_fin. change (xleb (Fin x) PInf) with true. tauto. Qed.
Lemma inside_none x lo : inside (Fin x) (Fin lo, None) = true <-> lo <= x.
Proof. unfold inside. cbn [fst snd]. rewrite andb_true_iff, !xleb_fin. tauto. Qed.
Lemma inside_lower x lo u : inside (Fin x) (Fin lo, u) = true -> lo <= x.
Proof. unfold inside. cbn [fst snd]. rewrite andb_true_iff, xleb_fin. tauto. Qed.
Lemma inside_real x : inside (Fin x) real_line = true.
Proof. reflexivity. Qed.

Lemma all_inside_cons x xs b bs :
  all_inside (x :: xs) (b :: bs) <-> inside x b = true /\ all_inside xs bs.
Proof.
  unfold all_inside. split; intro H; [inversion H; subst; tauto|]. constructor; tauto.
Qed.
Lemma all_inside_nil : all_inside [] [] <-> True.
Proof. split; intro; [exact I|constructor]. Qed.

Ltac box_facts H :=
  cbn [map params_support named nth_error String.eqb Ascii.eqb Bool.eqb] in H;
  rewrite ?all_inside_cons, ?all_inside_nil in H;
  unfold positive, open_unit, unit_bound in H;
  rewrite ?inside_fin, ?inside_pos, ?inside_none, ?inside_real in H.
Ltac box_goal :=
  cbn [map params_support named nth_error String.eqb Ascii.eqb Bool.eqb];
  rewrite ?all_inside_cons, ?all_inside_nil;
  unfold positive, open_unit, unit_bound;
  rewrite ?inside_fin, ?inside_pos, ?inside_none, ?inside_real.
Ltac set_cases HP := cbn [sets In] in HP; repeat (destruct HP as [HP|HP]; [subst|]); try contradiction HP.

(** Every candidate within the bounds is a documented parameter value, except for the [leaky] sets. *)
Lemma box_valid f P N v : In P (sets f) -> ~ In (f, P) leaky -> in_box f P N v -> domain f P v.
Proof.
  intros HP HL [_ HB]. pose proof eps_small as He.
  destruct f; set_cases HP; try (exfalso; apply HL; cbn [leaky In]; tauto); clear HL; box_facts HB;
    cbn [domain In]; unfold in_unit; repeat split; intros; try lra;
    repeat match goal with
    | K : _ \/ _ |- _ => destruct K as [K|K]; try discriminate K
    | K : False |- _ => contradiction K
    end; repeat split; lra.
Qed.

Definition pick (l : list (string * R)) : string -> R :=
  fun k => match find (fun p => String.eqb (fst p) k) l with Some p => snd p | None => 0 end.

Lemma leaky_leaks f P : In (f, P) leaky -> exists N v, in_box f P N v /\ ~ domain f P v.
Proof.
  pose proof eps_small as He.
  intro HL. cbn [leaky In] in HL.
  repeat (destruct HL as [HL|HL]; [injection HL as <- <-|]); try contradiction HL.
  - exists None, (pick [("lower", 1); ("upper", 0)]). split.
    + split; [tauto|]. box_goal. tauto.
    + cbn. lra.
  - exists None, (pick [("lower", 1); ("upper", 0)]). split.
    + split; [tauto|]. box_goal. tauto.
    + cbn. lra.
  - exists None, (pick [("lower", 1); ("c", 0); ("upper", 0)]). split.
    + split; [tauto|]. box_goal. tauto.
    + cbn. lra.
  - exists None, (pick [("sigma", 1); ("lower", 1); ("upper", 0)]). split.
    + split; [tauto|]. box_goal. cbn [pick find String.eqb Ascii.eqb Bool.eqb fst snd]. repeat split; lra.
    + cbn. lra.
  - exists None, (pick [("alpha", 1); ("beta", 1); ("lower", 1); ("upper", 0)]). split.
    + split; [tauto|]. box_goal. cbn [pick find String.eqb Ascii.eqb Bool.eqb fst snd]. repeat split; lra.
    + cbn. lra.
  - exists None, (pick [("N", 1); ("k", 2); ("n", 1)]). split.
    + split; [tauto|]. box_goal. cbn [pick find String.eqb Ascii.eqb Bool.eqb fst snd]. repeat split; lra.
    + cbn. lra.
  - exists None, (pick [("mu", 1/2); ("sigma", 3/4)]). split.
    + split; [tauto|]. box_goal. cbn [pick find String.eqb Ascii.eqb Bool.eqb fst snd]. repeat split; lra.
    + cbn [domain]. intros (_ & _ & H & _). specialize (H ltac:(cbn [In]; tauto)).
      cbn [pick find String.eqb Ascii.eqb Bool.eqb fst snd] in H.
      replace (1 / 2 * (1 - 1 / 2)) with ((1/2) * (1/2)) in H by lra. rewrite sqrt_square in H by lra. lra.
  - exists None, (pick [("p", 2); ("n", 1)]). split.
    + split; [tauto|]. box_goal. cbn [pick find String.eqb Ascii.eqb Bool.eqb fst snd]. repeat split; lra.
    + cbn [domain]. intros (_ & H). specialize (H ltac:(cbn [In]; tauto)). unfold in_unit in H.
      cbn [pick find String.eqb Ascii.eqb Bool.eqb fst snd] in H. lra.
  - exists None, (pick [("psi", 1/2); ("p", 2); ("n", 1)]). split.
    + split; [tauto|]. box_goal. cbn [pick find String.eqb Ascii.eqb Bool.eqb fst snd]. repeat split; lra.
    + cbn [domain]. intros (_ & _ & H). specialize (H ltac:(cbn [In]; tauto)). unfold in_unit in H.
      cbn [pick find String.eqb Ascii.eqb Bool.eqb fst snd] in H. lra.
Qed.

(** A search within the published bounds can only try documented parameter values, exactly for these sets. *)
Theorem C53_search_stays_valid : forall f P, In P (sets f) ->
  ((forall N v, in_box f P N v -> domain f P v) <-> ~ In (f, P) leaky).
Proof.
  intros f P HP. split.
  - intros H HL. destruct (leaky_leaks f P HL) as (N & v & HB & HD). apply HD, (H N v HB).
  - intros HL N v HB. exact (box_valid f P N v HP HL HB).
Qed.

(** With the size of the population fixed, HyperGeometric is safe too. *)
Theorem C53_hypergeometric_fixed : forall v,
  in_box HyperGeometric ["N"; "k"; "n"] (Some (Fin (v "N"))) v -> domain HyperGeometric ["N"; "k"; "n"] v.
Proof.
  intros v [_ HB]. pose proof eps_small. box_facts HB. cbn [domain]. lra.
Qed.

Example C53_search_stays_valid_inhabited :
  in_box Gamma ["mu"; "sigma"] None (fun k => if String.eqb k "mu" then 3 else 2) /\
  in_box HyperGeometric ["N"; "k"; "n"] (Some (Fin 50)) (fun k => if String.eqb k "N" then 50 else 7).
Proof.
  pose proof eps_small. split; (split; [tauto|]); box_goal; cbn; lra.
Qed.

Lemma moved (v : string -> R) (k0 : string) (t : R) : Rabs t <= 1 / 10000 ->
  forall k, Rabs ((if String.eqb k k0 then v k + t else v k) - v k) <= 1 / 10000.
Proof.
  intros H k. destruct (String.eqb k k0).
  - replace (v k + t - v k) with t by ring. exact H.
  - rewrite Rminus_diag_eq by reflexivity. rewrite Rabs_R0. lra.
Qed.

Lemma all_moved (v : string -> R) (t : R) : Rabs t <= 1 / 10000 -> forall k, Rabs ((v k + t) - v k) <= 1 / 10000.
Proof. intros H k. replace (v k + t - v k) with t by ring. exact H. Qed.

(** The bounds do not cut off documented values: whatever has room around it is inside. *)
Theorem C53_nothing_cut_off : forall f P N v, In P (sets f) -> (f, P) <> (Bernoulli, ["logit_p"]) ->
  N = None \/ N = Some (Fin (v "N")) -> with_room f P v -> in_box f P N v.
Proof.
  intros f P N v HP HB HN HR. split; [exact HN|].
  pose proof eps_small as He.
  assert (D0 : domain f P v).
  { apply HR. intro k. rewrite Rminus_diag_eq by reflexivity. rewrite Rabs_R0. lra. }
  assert (D1 : domain f P (fun k => v k + 1 / 10000)).
  { apply HR. apply all_moved. rewrite Rabs_right; lra. }
  assert (D2 : domain f P (fun k => v k + - (1 / 10000))).
  { apply HR. apply all_moved. rewrite Rabs_Ropp, Rabs_right; lra. }
  clear HR.
  destruct f; set_cases HP; try (exfalso; apply HB; reflexivity); clear HB; box_goal;
    cbn [domain In] in D0, D1, D2; unfold in_unit in D0, D1, D2;
    repeat match goal with
    | K : _ /\ _ |- _ => destruct K
    | K : (_ \/ _ -> _) |- _ =>
        first [specialize (K (or_introl eq_refl)) | specialize (K (or_intror (or_introl eq_refl)))
              | specialize (K (or_intror (or_intror (or_introl eq_refl)))) | clear K]
    end; try (repeat split; lra).
  - assert (Hs : sqrt (v "mu" * (1 - v "mu")) <= 1 / 2).
    { rewrite <- (sqrt_square (1 / 2)) by lra. apply sqrt_le_1_alt. pose proof (pow2_ge_0 (v "mu" - 1 / 2)). nra. }
    repeat split; lra.
  - destruct HN; subst N; [rewrite !inside_none|rewrite !inside_fin]; lra.
Qed.

(** Bernoulli keeps the bounds of p for logit_p, which cut off every negative log-odds. *)
Theorem C53_logit_refuted : forall v, v "logit_p" < 0 ->
  with_room Bernoulli ["logit_p"] v /\ forall N, ~ in_box Bernoulli ["logit_p"] N v.
Proof.
  intros v H. pose proof eps_small as He. split.
  - intros w _. cbn [domain In]. intros [K|[]]. discriminate K.
  - intros N [_ HB]. box_facts HB. lra.
Qed.

(** One pair of bounds per reported parameter, whatever the construction and the later updates. *)
Theorem C53_one_bound_each : forall ptd f a d N, construct ptd f a = Ok d ->
  List.length (params_support f (names d) N) = List.length (names d).
Proof.
  intros ptd f a d N H. pose proof (construct_names ptd f a d H) as HP.
  destruct f; set_cases HP; match goal with K : _ = names _ |- _ => rewrite <- K end; reflexivity.
Qed.

Ltac upd HU :=
  cbn [update init_vals map fst snd] in HU;
  unfold betabinomial_update, binomial_update, zib_update, hypergeometric_update, plain_update, al_update, bernoulli_update,
    beta_update, exponential_update, gamma_update, halfnormal_update,
    halfstudentt_update, inversegamma_update, logitnormal_update, nb_update, normal_update, rice_update,
    skewstudentt_update, skewnormal_update, studentt_update, wald_update, zinb_update, betascaled_update,
    truncatednormal_update, kumaraswamy_update, uniform_update, discreteuniform_update, triangular_update, pareto_update,
    np_float64 in HU.

(** The families whose moment fit calls optimize_mean_sigma without a guess (HyperGeometric, which does too, is run
    without bounds) start inside the bounds, in whatever parametrization the object reports. *)
Definition self_starting : list family :=
  [LogLogistic; SkewNormal; ZeroInflatedPoisson; DiscreteWeibull; SkewStudentT; NegativeBinomial;
   ZeroInflatedNegativeBinomial; Kumaraswamy; ZeroInflatedBinomial; BetaBinomial].

(** The default starting values are given by the names of the canonical parameters. *)
Theorem C53_default_names : forall f, map fst (init_vals f) = canonical f.
Proof. destruct f; reflexivity. Qed.
Theorem C53_default_start_inside : forall f d d1 N, In f self_starting -> In (names d) (sets f) ->
  update f d (map (fun p => Some (Fin (snd p))) (init_vals f)) = Ok d1 ->
  exists xs, params d1 = map Some xs /\ all_inside xs (params_support f (names d1) N).
Proof.
  intros f d d1 N HF HP HU. pose proof eps_small as He.
  assert (Hn : names d1 = names d) by exact (update_names _ _ _ _ HU). rewrite Hn. clear Hn.
  destruct d as [ns ps at0 sp fr]. cbn [names] in *.
  cbn [self_starting In] in HF. repeat (destruct HF as [HF|HF]; [subst f|]); try contradiction HF; set_cases HP; upd HU.
  all: rewrite ?np_int64_fin in HU by lra; cbn [bind] in HU; injection HU as <-; cbnG.
  all: rewrite ?to_precision_fin.
  all: rewrite ?Reqb_false by lra.
  all: rewrite ?(Int_part_IZR 10).
  all: match goal with |- exists xs, ?l = map Some xs /\ _ =>
         let r := eval cbn in (map (fun o : option xr => match o with Some x => x | None => NaN end) l) in exists r end.
  all: split; [reflexivity|]; box_goal.
  all: assert (Hp : eps <= 1 / (eps + 1 ^ 2)) by (apply Rle_trans with (1 / 2);
         [lra | unfold Rdiv; rewrite !Rmult_1_l; apply Rinv_le_contravar; lra]).
  all: replace (1 ^ 2) with (1 * (1 * 1)) in Hp by ring; repeat split; lra.
Qed.

(** What scipy promises: if anything is within the bounds, the answer is a finite vector within them. *)
Definition leaves_room (bs : list bound) : Prop := exists zs, all_inside (map Fin zs) bs.
Definition honours_bounds (minimize : list (option xr) -> list bound -> list (list xr) * list xr) : Prop :=
  forall x0 bs, leaves_room bs -> exists ys, snd (minimize x0 bs) = map Fin ys /\ all_inside (map Fin ys) bs.

(** A population, when it is fixed, has members. *)
Definition populated (f : family) (N : option xr) : Prop :=
  f = HyperGeometric -> N = None \/ exists n, N = Some (Fin n) /\ eps <= n.

Lemma bounds_leave_room f ns N : populated f N -> leaves_room (params_support f ns N).
Proof.
  intro HN. pose proof eps_small as He. pose proof PI_RGT_0 as Hp. unfold leaves_room.
  destruct f; cbn [params_support]; repeat match goal with |- context [if ?c then _ else _] => destruct c end.
  all: try (exists [1/2]; box_goal; lra).
  all: try (exists [1/2; 1/2]; box_goal; repeat split; lra).
  all: try (exists [1/2; 1/2; 1/2]; box_goal; repeat split; lra).
  all: try (exists [1/2; 1/2; 1/2; 1/2]; box_goal; repeat split; lra).
  - exists [eps; eps; eps]. destruct (HN eq_refl) as [->|(n & -> & Hn)]; box_goal; repeat split; lra.
  - exists [0; 1]. box_goal. repeat split; lra.
Qed.

(** Such an optimiser exists: one that always answers with a corner of the bounds. *)
Definition corner (b : bound) : R :=
  match fst b with Fin l => l | _ => match snd b with Some (Fin u) => u | _ => 0 end end.
Lemma honours_bounds_possible tried : honours_bounds (fun _ bs => (tried, map (fun b => Fin (corner b)) bs)).
Proof.
  intros x0 bs [zs H]. exists (map corner bs). cbn [snd]. rewrite !map_map. split; [reflexivity|].
  remember (map Fin zs) as ws eqn:E. revert zs E. induction H as [|w b ws bs Hw H IH]; intros zs E; cbn [map]; constructor.
  - destruct zs as [|z zs]; [discriminate|]. cbn [map] in E. injection E as -> _.
    destruct b as [l u]. unfold inside, corner in *. cbn [fst snd] in *. apply andb_true_iff in Hw. destruct Hw as [Hl Hu].
    destruct l; try discriminate Hl; apply andb_true_iff; destruct u as [[]|]; try discriminate Hu; rewrite ?xleb_fin in *;
      (split; [first [reflexivity|lra]|first [reflexivity|lra]]).
  - destruct zs as [|z zs]; [discriminate|]. cbn [map] in E. injection E as _ E. eapply IH; eauto.
Qed.

Lemma all_inside_length xs bs : all_inside xs bs -> List.length xs = List.length bs.
Proof. induction 1; cbn; congruence. Qed.

Lemma update_installs f d ys d' N : In (names d) (sets f) ->
  all_inside (map Fin ys) (params_support f (names d) N) ->
  update f d (map Some (map Fin ys)) = Ok d' ->
  frozen d' = true /\ List.length ys = List.length (canonical f) /\
  forall i k y, nth_error (canonical f) i = Some k -> nth_error ys i = Some y -> attr d' k = Some (Fin (readback f k y)).
Proof.
  intros HP HB HU. pose proof eps_small as He.
  pose proof (all_inside_length _ _ HB) as HL. rewrite map_length in HL.
  destruct d as [ns ps at0 sp fr]. cbn [names] in *.
  destruct f; set_cases HP; cbn in HL;
    destruct ys as [|y1 [|y2 [|y3 [|y4 [|y5 yr]]]]]; cbn in HL; try discriminate HL; clear HL;
    box_facts HB; cbn [map] in HU; upd HU.
  all: rewrite ?np_int64_fin in HU by lra; cbn [bind] in HU; injection HU as <-.
  all: split; [reflexivity|]; split; [reflexivity|].
  all: intros i k y Hk Hy.
  all: destruct i as [|[|[|[|i]]]]; cbn in Hk, Hy; try discriminate Hk; try (destruct i; discriminate Hk).
  all: injection Hk as <-; injection Hy as <-.
  all: try reflexivity.
  all: destruct HB as (_ & B2 & B3 & _); apply inside_lower in B2, B3.
  all: cbn -[truncate Int_part]; rewrite truncate_nonneg by lra; reflexivity.
Qed.

Section Ml.
Variable f : family.
Variable fit : dist -> res dist.
Variable minimize : list (option xr) -> list bound -> list (list xr) * list xr.
Variable N : option xr.

Lemma candidates_names (tried : list (list xr)) : forall d1 d2,
  fold_left (fun r c => do s <- r; update f s (map Some c)) tried (Ok d1) = Ok d2 -> names d2 = names d1.
Proof.
  induction tried as [|c r IH]; intros d1 d2 H; cbn [fold_left] in H.
  - injection H as <-. reflexivity.
  - cbn [bind] in H. destruct (update f d1 (map Some c)) as [s|e] eqn:E.
    + rewrite (IH s d2 H). exact (update_names _ _ _ _ E).
    + exfalso. clear IH. induction r as [|c' r IH]; cbn [fold_left bind] in H; [discriminate|auto].
Qed.

(** After the numerical maximum-likelihood fit the object is frozen and its canonical parameters are exactly the
    vector the optimiser returned (counts cut to integers), whatever candidates were tried on the way; that vector
    respects the bounds the object published when the search started. *)
Theorem C53_ml_installs : forall d d1 d', honours_bounds minimize -> populated f N ->
  fit d = Ok d1 -> In (names d1) (sets f) -> optimize_ml f fit minimize N d = Ok d' ->
  exists ys, snd (minimize (params d1) (params_support f (names d1) N)) = map Fin ys /\
    all_inside (map Fin ys) (params_support f (names d1) N) /\
    frozen d' = true /\ names d' = names d1 /\ List.length ys = List.length (canonical f) /\
    forall i k y, nth_error (canonical f) i = Some k -> nth_error ys i = Some y ->
      attr d' k = Some (Fin (readback f k y)).
Proof.
  intros d d1 d' HH HN HF HP H. unfold optimize_ml in H. rewrite HF in H. cbn [bind] in H.
  destruct (HH (params d1) (params_support f (names d1) N) (bounds_leave_room _ _ _ HN)) as (ys & E & HB). exists ys.
  destruct (minimize (params d1) (params_support f (names d1) N)) as [tried x]. cbn [snd] in E. subst x.
  destruct (fold_left (fun r c => do s <- r; update f s (map Some c)) tried (Ok d1)) as [d2|e] eqn:E2;
    cbn [bind] in H; [|discriminate].
  pose proof (candidates_names tried d1 d2 E2) as Hn.
  pose proof (update_names _ _ _ _ H) as Hn'.
  rewrite <- Hn in HP, HB.
  destruct (update_installs f d2 ys d' N HP HB H) as (F1 & F2 & F3).
  rewrite Hn in HB, Hn'.
  split; [reflexivity|]. split; [exact HB|]. split; [exact F1|]. split; [exact Hn'|]. split; [exact F2|exact F3].
Qed.
End Ml.

(** The fitted parameters are documented values, unless the family leaks; this holds in every parametrization. *)
Theorem C53_ml_valid : forall f fit minimize N d d1 d', honours_bounds minimize ->
  ~ In (f, canonical f) leaky ->
  fit d = Ok d1 -> In (names d1) (sets f) -> optimize_ml f fit minimize N d = Ok d' ->
  exists v, domain f (canonical f) v /\ forall k, In k (canonical f) -> attr d' k = Some (Fin (readback f k (v k))).
Proof.
  intros f fit minimize N d d1 d' HH HL HF HP H. pose proof eps_small as He.
  assert (HN : populated f N) by (intro K; subst f; exfalso; apply HL; cbn; tauto).
  destruct (C53_ml_installs f fit minimize N d d1 d' HH HN HF HP H) as (ys & _ & HB & _ & _ & Hlen & Hattr).
  assert (HV : exists v, ys = map v (canonical f) /\ domain f (canonical f) v).
  { clear H Hattr HH. revert HL HB Hlen HP. generalize (names d1). clear. intros ns HL HB Hlen HP.
    pose proof eps_small as He.
    destruct f; set_cases HP; try (exfalso; apply HL; cbn [canonical sets hd leaky In]; tauto); clear HL;
      cbn [canonical sets hd List.length] in Hlen;
      destruct ys as [|y1 [|y2 [|y3 [|y4 [|y5 yr]]]]]; try discriminate Hlen; clear Hlen; box_facts HB;
      match goal with |- exists v, ?l = map v (canonical ?g) /\ _ => exists (pick (combine (canonical g) l)) end;
      (split; [reflexivity|]);
      cbn [domain canonical sets hd In]; unfold in_unit; cbn [pick combine canonical sets hd find String.eqb Ascii.eqb Bool.eqb fst snd];
      repeat split; intros; try lra;
      repeat match goal with
      | K : _ \/ _ |- _ => destruct K as [K|K]; try discriminate K
      | K : False |- _ => contradiction K
      end; repeat split; lra. }
  destruct HV as (v & -> & HD). exists v. split; [exact HD|].
  intros k Hk. destruct (In_nth_error _ _ Hk) as [i Hi]. apply (Hattr i k (v k) Hi).
  rewrite nth_error_map, Hi. reflexivity.
Qed.

(** In an alternative parametrization the bounds of the alternative parameters are applied to the canonical ones: a Beta
    given by its mean can only be fitted with alpha below one, an AsymmetricLaplace given by q only with kappa below
    one, however the sample looks. *)
Theorem C53_ml_alternative_refuted : forall f k fit minimize N d d1 d', honours_bounds minimize ->
  In (f, k) [(Beta, "alpha"); (AsymmetricLaplace, "kappa")] ->
  fit d = Ok d1 -> In (names d1) (tl (sets f)) -> optimize_ml f fit minimize N d = Ok d' ->
  exists y, attr d' k = Some (Fin y) /\ 0 < y < 1.
Proof.
  intros f k fit minimize N d d1 d' HH Hf HF HP H. pose proof eps_small as He.
  assert (HP' : In (names d1) (sets f)) by (destruct (sets f); [destruct HP|right; exact HP]).
  assert (HN : populated f N) by (intro K; subst f; destruct Hf as [Hf|[Hf|[]]]; discriminate Hf).
  destruct (C53_ml_installs f fit minimize N d d1 d' HH HN HF HP' H) as (ys & _ & HB & _ & _ & Hlen & Hattr).
  cbn [In] in Hf. destruct Hf as [Hf|[Hf|[]]]; injection Hf as <- <-; cbn [sets tl] in HP;
    cbn [canonical sets hd List.length] in Hlen; destruct ys as [|y1 ys]; try discriminate Hlen;
    set_cases HP; (exists y1; split; [exact (Hattr 0%nat _ y1 eq_refl eq_refl)|]);
    match goal with K : _ = names d1 |- _ => rewrite <- K in HB end; box_facts HB; lra.
Qed.

(** Not vacuous: a Beta given by its mean and sample size whose moment fit is alpha = 6, beta = 3, and an optimiser that
    honours bounds. *)
Example C53_ml_inhabited :
  exists d d1 d', construct (fun x y => (x, y)) Beta (fun k => if String.eqb k "mu" then Some (Fin (1 / 2)) else
                     if String.eqb k "nu" then Some (Fin 4) else None) = Ok d /\ In (names d) (tl (sets Beta)) /\
    (fun s => update Beta s [Some (Fin 6); Some (Fin 3)]) d = Ok d1 /\ names d1 = names d /\
    exists minimize, honours_bounds minimize /\
    optimize_ml Beta (fun s => update Beta s [Some (Fin 6); Some (Fin 3)]) minimize None d = Ok d'.
Proof.
  match goal with |- exists d d1 d', ?c = Ok d /\ _ => destruct c as [d|e] eqn:C; [|exfalso; discriminate C] end.
  assert (HN : names d = ["mu"; "nu"]) by (injection C as <-; reflexivity).
  assert (HN1 : names (beta_update d (Fin 6) (Fin 3)) = ["mu"; "nu"])
    by (rewrite <- HN; exact (update_names Beta d [Some (Fin 6); Some (Fin 3)] _ eq_refl)).
  exists d, (beta_update d (Fin 6) (Fin 3)),
    (beta_update (beta_update (beta_update d (Fin 6) (Fin 3)) (Fin (1 / 2)) (Fin (1 / 2)))
       (Fin (corner open_unit)) (Fin (corner positive))).
  split; [reflexivity|]. split; [rewrite HN; cbn; tauto|]. split; [reflexivity|]. split; [rewrite HN, HN1; reflexivity|].
  exists (fun _ bs => ([[Fin (1 / 2); Fin (1 / 2)]], map (fun b => Fin (corner b)) bs)).
  split; [apply honours_bounds_possible|].
  unfold optimize_ml. cbn [bind update]. rewrite HN1. reflexivity.
Qed.

(** The guess of VonMises is outside the bounds as soon as the requested mean is not an angle in [-pi, pi]. *)
Theorem C53_vonmises_guess_refuted : forall mean sigma N, PI < Rabs mean ->
  ~ all_inside (vonmises_guess mean sigma) (params_support VonMises ["mu"; "kappa"] N).
Proof.
  intros mean sigma N H HB. unfold vonmises_guess in HB. box_facts HB. destruct HB as [[A B] _].
  unfold Rabs in H. destruct (Rcase_abs mean); lra.
Qed.

(** The guess of Binomial, once cut to an integer, is inside the bounds exactly when at least one trial is left (for
    positive mean and a sigma within a factor of a thousand of it). *)
Theorem C53_binomial_guess : forall mean sigma g d d1 N, 0 < mean -> mean / 1000 <= sigma <= 1000 * mean ->
  binomial_guess mean sigma = Ok g -> update Binomial d (map Some g) = Ok d1 ->
  exists xs, params d1 = map Some xs /\
    (all_inside xs (params_support Binomial ["n"; "p"] N) <-> 1 <= mean + 2 * sigma).
Proof.
  intros mean sigma g d d1 N Hm Hs HG HU. pose proof eps_small as He.
  unfold binomial_guess in HG. rewrite pydiv_fin in HG by lra. cbn [bind] in HG. injection HG as <-.
  cbn [map] in HU. upd HU. rewrite np_int64_fin in HU by lra. cbn [bind] in HU. injection HU as <-.
  exists [Fin (IZR (Int_part (mean + sigma * 2))); Fin (mean / (mean + sigma * 2))]. split; [reflexivity|].
  box_goal.
  assert (Hi : 0 < / (mean + sigma * 2)) by (apply Rinv_0_lt_compat; lra).
  assert (Hii : (mean + sigma * 2) * / (mean + sigma * 2) = 1) by (apply Rinv_r; lra).
  assert (Hp : eps <= mean / (mean + sigma * 2) <= 1 - eps) by (unfold Rdiv; split; nra).
  assert (Hn : eps <= IZR (Int_part (mean + sigma * 2)) <-> 1 <= mean + 2 * sigma).
  { destruct (base_Int_part (mean + sigma * 2)) as [A B]. split; intro K.
    - assert (0 < IZR (Int_part (mean + sigma * 2))) as K' by lra. apply lt_IZR in K'.
      assert (1 <= IZR (Int_part (mean + sigma * 2))) by (apply IZR_le; lia). lra.
    - assert (0 < IZR (Int_part (mean + sigma * 2))) as K' by lra. apply lt_IZR in K'.
      assert (1 <= IZR (Int_part (mean + sigma * 2))) by (apply IZR_le; lia). lra. }
  tauto.
Qed.

Example C53_binomial_guess_inhabited :
  binomial_guess 3 1 = Ok [Fin (3 + 1 * 2); Fin (3 / (3 + 1 * 2))] /\ 3 / 1000 <= 1 <= 1000 * 3.
Proof. split; [unfold binomial_guess; rewrite pydiv_fin by lra; reflexivity|lra]. Qed.

Print Assumptions C53_search_stays_valid.
Print Assumptions C53_hypergeometric_fixed.
Print Assumptions C53_nothing_cut_off.
Print Assumptions C53_logit_refuted.
Print Assumptions C53_one_bound_each.
Print Assumptions C53_default_names.
Print Assumptions C53_default_start_inside.
Print Assumptions C53_ml_installs.
Print Assumptions C53_ml_valid.
Print Assumptions C53_ml_alternative_refuted.
Print Assumptions C53_vonmises_guess_refuted.
Print Assumptions C53_binomial_guess.
