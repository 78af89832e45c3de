(** Property theorems for maxent, quartile and match_moments: C32-C34, C49. *)
From Coq Require Import List Bool String Ascii Reals ZArith Lra Lia Psatz.
From Verif Require Import Base RLists XR FamModel FamSpec FamProofs FamHistory FamProps FitModel LawModel LawSpec LawProofs LawProps OptModel OptProps
  OptFamProps SelProps ApiModel.
Import ListNotations.
Open Scope R_scope.

(* ---------------- shared vocabulary ---------------- *)
(** The state of the object after the assignment of [fixed_params] (nothing happens when there are none). *)
Definition assigned {D} (o : object D) (fixed_params : option (list (string * xr))) (d : D) : D * res unit :=
  match fixed_params with Some kw => o_reparam o kw d | None => (d, Ok tt) end.
(** [lower, upper] does not fit in the support, or is all of a bounded support. *)
Definition outside (supp : xr * xr) (lower upper : R) : Prop :=
  (exists a, fst supp = Fin a /\ lower < a) \/ (exists b, snd supp = Fin b /\ b < upper) \/
  (fst supp = Fin lower /\ snd supp = Fin upper).
Lemma check_endpoints_outside supp lower upper :
  (check_endpoints supp (Fin lower) (Fin upper) = Err ValueError /\ outside supp lower upper) \/
  (check_endpoints supp (Fin lower) (Fin upper) = Ok tt /\ ~ outside supp lower upper).
Proof.
  unfold check_endpoints, outside. destruct supp as [sl su]. cbn [fst snd].
  destruct sl as [a| | |]; cbn [xisfinite andb xltb].
  - destruct (Rltb_spec lower a); [left; split; [reflexivity|]; left; exists a; auto|].
    destruct su as [b| | |]; cbn [xisfinite andb xltb xeqb].
    + destruct (Rltb_spec b upper); [left; split; [reflexivity|]; right; left; exists b; auto|].
      destruct (Reqb_spec lower a), (Reqb_spec upper b); cbn [andb]; subst;
        [left; split; [reflexivity|]; right; right; auto|..];
        right; (split; [reflexivity|]); intros [(z & E & H)|[(z & E & H)|(E1 & E2)]];
        repeat match goal with H : Fin _ = Fin _ |- _ => injection H as H end; subst; lra.
    + right. split; [reflexivity|]. intros [(z & E & H)|[(z & E & H)|(E1 & E2)]]; try discriminate. injection E as <-. lra.
    + right. split; [reflexivity|]. intros [(z & E & H)|[(z & E & H)|(E1 & E2)]]; try discriminate. injection E as <-. lra.
    + right. split; [reflexivity|]. intros [(z & E & H)|[(z & E & H)|(E1 & E2)]]; try discriminate. injection E as <-. lra.
  - destruct su as [b| | |]; cbn [xisfinite andb xltb];
      [destruct (Rltb_spec b upper); [left; split; [reflexivity|]; right; left; exists b; auto|]|..];
      right; (split; [reflexivity|]); intros [(z & E & H)|[(z & E & H)|(E1 & E2)]]; try discriminate.
    injection E as <-. lra.
  - destruct su as [b| | |]; cbn [xisfinite andb xltb];
      [destruct (Rltb_spec b upper); [left; split; [reflexivity|]; right; left; exists b; auto|]|..];
      right; (split; [reflexivity|]); intros [(z & E & H)|[(z & E & H)|(E1 & E2)]]; try discriminate.
    injection E as <-. lra.
  - destruct su as [b| | |]; cbn [xisfinite andb xltb];
      [destruct (Rltb_spec b upper); [left; split; [reflexivity|]; right; left; exists b; auto|]|..];
      right; (split; [reflexivity|]); intros [(z & E & H)|[(z & E & H)|(E1 & E2)]]; try discriminate.
    injection E as <-. lra.
Qed.

(* ---------------- C32 ---------------- *)
Definition documented_stats : list string := ["mean"; "mode"; "median"; "var"; "std"; "skewness"; "kurtosis"]%string.
(** Arguments maxent must reject. [d] is the object after [fixed_params] were assigned. *)
Definition bad_maxent {D} (o : object D) (d : D) (lower upper mass : R) (fixed_stat : option (string * xr)) : Prop :=
  (exists s v, fixed_stat = Some (s, v) /\ ~ In s documented_stats) \/
  ~ (0 < mass <= 1) \/ upper <= lower \/ o_frozen o d = true \/ outside (o_supp o d) lower upper.

Lemma existsb_in s l : existsb (String.eqb s) l = true <-> In s l.
Proof.
  rewrite existsb_exists. split.
  - intros (x & H & E). apply String.eqb_eq in E. subst. exact H.
  - intro H. exists s. split; [exact H|apply String.eqb_refl].
Qed.

(** maxent rejects exactly these, before anything is fitted: the object is as [fixed_params] left it, and not frozen by
    the call. *)
Theorem C32_rejects : forall D (o : object D) default_mass search d lower upper mass fixed_params fixed_stat d1,
  o_categorical o = false -> assigned o fixed_params d = (d1, Ok tt) ->
  bad_maxent o d1 lower upper mass fixed_stat ->
  maxent o default_mass search d (Fin lower) (Fin upper) (Some (Fin mass)) fixed_params fixed_stat = (d1, Err ValueError).
Proof.
  intros D o dm search d lower upper mass fp fs d1 HC HA HB. unfold maxent, valid_distribution. rewrite HC.
  unfold assigned in HA. rewrite HA. cbn [andthen].
  destruct (match fs with Some (s, _) => negb (existsb (String.eqb s) valid_stats) | None => false end) eqn:E1; [reflexivity|].
  destruct (xltb (Fin 0) (Fin mass) && xleb (Fin mass) (Fin 1))%bool eqn:E2; [|reflexivity]. cbn [negb].
  destruct (xleb (Fin upper) (Fin lower)) eqn:E3; [reflexivity|].
  destruct (o_frozen o d1) eqn:E4; [reflexivity|].
  destruct (check_endpoints_outside (o_supp o d1) lower upper) as [[C _]|[C N]]; rewrite C; [reflexivity|].
  exfalso. destruct HB as [(s & v & -> & H)|[H|[H|[H|H]]]].
  - apply H. apply existsb_in. apply negb_false_iff in E1. exact E1.
  - apply H. apply andb_true_iff in E2. destruct E2 as [A B]. apply Rltb_lt in A. apply xleb_fin in B. lra.
  - apply xleb_fin in H. congruence.
  - congruence.
  - contradiction.
Qed.
(** It accepts everything else: it notes which parameters are fixed, fits the moments suggested by the interval, and
    optimises over the free ones. *)
Theorem C32_accepts : forall D (o : object D) default_mass search d lower upper mass fixed_params fixed_stat d1 d2 visited x,
  o_categorical o = false -> assigned o fixed_params d = (d1, Ok tt) ->
  ~ bad_maxent o d1 lower upper mass fixed_stat ->
  o_fit o (Fin ((lower + upper) / 2)) (Fin ((upper - lower) / 4 / mass)) d1 = (d2, Ok tt) ->
  (forall v, fixed_stat = Some ("mode"%string, v) -> o_has_mode o d2 = true) ->
  search d2 = (visited, x) ->
  maxent o default_mass search d (Fin lower) (Fin upper) (Some (Fin mass)) fixed_params fixed_stat =
  optimise o (o_nparams o d2) (get_fixed_params (o_attr o d1) (o_names o d1)) visited x d2.
Proof.
  intros D o dm search d lower upper mass fp fs d1 d2 vis x HC HA HB HF HM HS. unfold maxent, valid_distribution. rewrite HC.
  unfold assigned in HA. rewrite HA. cbn [andthen].
  assert (M : 0 < mass <= 1).
  { destruct (Rlt_dec 0 mass), (Rle_dec mass 1); try lra; exfalso; apply HB; right; left; lra. }
  replace (match fs with Some (s, _) => negb (existsb (String.eqb s) valid_stats) | None => false end) with false.
  2:{ destruct fs as [[s v]|]; [|reflexivity]. symmetry. apply negb_false_iff. destruct (existsb (String.eqb s) valid_stats) eqn:E; [reflexivity|].
      exfalso. apply HB. left. exists s, v. split; [reflexivity|]. intro H. apply existsb_in in H. unfold documented_stats in H. unfold valid_stats in E. congruence. }
  replace (xltb (Fin 0) (Fin mass) && xleb (Fin mass) (Fin 1))%bool with true.
  2:{ symmetry. apply andb_true_iff. split; [cbn; apply Rltb_true; lra|apply xleb_fin; lra]. }
  cbn [negb]. destruct (xleb (Fin upper) (Fin lower)) eqn:E3.
  { exfalso. apply HB. right. right. left. apply xleb_fin. exact E3. }
  destruct (o_frozen o d1) eqn:E4; [exfalso; apply HB; unfold bad_maxent; tauto|].
  destruct (check_endpoints_outside (o_supp o d1) lower upper) as [[_ N]|[C _]]; [exfalso; apply HB; unfold bad_maxent; tauto|].
  rewrite C.
  assert (A1 : xdiv (xadd (Fin lower) (Fin upper)) (Fin 2) = Fin ((lower + upper) / 2)).
  { cbn. rewrite Reqb_false by lra. reflexivity. }
  assert (A2 : xdiv (xdiv (xsub (Fin upper) (Fin lower)) (Fin 4)) (Fin mass) = Fin ((upper - lower) / 4 / mass)).
  { cbn. rewrite (Reqb_false 4 0) by lra. cbn. rewrite Reqb_false by lra. reflexivity. }
  rewrite A1, A2, HF. cbn [andthen].
  replace (match fs with Some (s, _) => String.eqb s "mode" && negb (o_has_mode o d2) | None => false end)%bool with false.
  2:{ destruct fs as [[s v]|]; [|reflexivity]. destruct (String.eqb_spec s "mode") as [->|]; [|reflexivity].
      rewrite (HM v eq_refl). reflexivity. }
  rewrite HS. reflexivity.
Qed.

(** A frozen object is never accepted again, whatever the other arguments (valid or not). *)
Theorem C32_frozen_raises : forall D (o : object D) default_mass search d lower upper mass fixed_stat,
  o_categorical o = false -> o_frozen o d = true ->
  maxent o default_mass search d lower upper mass None fixed_stat = (d, Err ValueError).
Proof.
  intros D o dm search d lower upper mass fs HC HF. unfold maxent, valid_distribution. rewrite HC. cbn [andthen]. rewrite HF.
  repeat match goal with |- (if ?c then _ else _) = _ => destruct c; [reflexivity|] end. reflexivity.
Qed.

(** What the methods of a distribution do to its bookkeeping, for objects satisfying [wf]; shown below for the univariate
    families. *)
Record behaves {D} (o : object D) (wf : D -> Prop) : Prop := {
  b_nodup : forall d, wf d -> NoDup (o_names o d);
  b_fit : forall m s d d', wf d -> o_fit o m s d = (d', Ok tt) ->
    wf d' /\ o_frozen o d' = true /\ o_names o d' = o_names o d /\ o_nparams o d' = List.length (o_names o d');
  b_reparam_frozen : forall kw d d' r, o_reparam o kw d = (d', r) -> o_frozen o d = true -> o_frozen o d' = true;
  b_reparam_wf : forall kw d d' r, wf d -> o_reparam o kw d = (d', r) -> wf d';
  b_reparam_full : forall kw d d', wf d -> map fst kw = o_names o d -> o_reparam o kw d = (d', Ok tt) -> o_names o d' = o_names o d }.

Lemma optimise_frozen {D} (o : object D) wf n nf x : behaves o wf -> forall visited d d' r,
  o_frozen o d = true -> optimise o n nf visited x d = (d', r) -> o_frozen o d' = true.
Proof.
  intro B. induction visited as [|v vs IH]; intros d d' r HF H; cbn [optimise] in H.
  - destruct (get_params _ _ _ _ _) as [kw|e]; [|injection H as <- _; exact HF]. eapply b_reparam_frozen; eauto.
  - destruct (get_params _ _ _ _ _) as [kw|e]; cbn [andthen] in H; [|injection H as <- _; exact HF].
    destruct (o_reparam o kw d) as [d2 r2] eqn:E. assert (o_frozen o d2 = true) by (eapply b_reparam_frozen; eauto).
    destruct r2; cbn [andthen] in H; [|injection H as <- _; auto]. eapply IH; eauto.
Qed.

(** After a maxent that went through, a second one on the same object raises ValueError, with any arguments, and leaves
    the object as it was up to the assignment of [fixed_params]. *)
Theorem C32_second_call_raises : forall D (o : object D) default_mass search d lower upper mass fixed_params fixed_stat d' wf,
  behaves o wf -> wf d -> maxent o default_mass search d lower upper mass fixed_params fixed_stat = (d', Ok tt) ->
  o_frozen o d' = true /\
  (forall search2 lower2 upper2 mass2 fixed_stat2,
     maxent o default_mass search2 d' lower2 upper2 mass2 None fixed_stat2 = (d', Err ValueError)) /\
  (forall search2 lower2 upper2 mass2 kw fixed_stat2 d2, o_reparam o kw d' = (d2, Ok tt) ->
     maxent o default_mass search2 d' lower2 upper2 mass2 (Some kw) fixed_stat2 = (d2, Err ValueError)).
Proof.
  intros D o dm search d lower upper mass fp fs d' wf B W H.
  assert (HC : o_categorical o = false).
  { unfold maxent, valid_distribution in H. destruct (o_categorical o); [injection H as _ H; discriminate|reflexivity]. }
  assert (HF : o_frozen o d' = true).
  { unfold maxent, valid_distribution in H. rewrite HC in H.
    destruct (match fp with Some kw => o_reparam o kw d | None => (d, Ok tt) end) as [d1 [|]] eqn:E1; cbn [andthen] in H; [|discriminate].
    assert (W1 : wf d1) by (destruct fp; [eapply b_reparam_wf; eauto|injection E1 as <- _; exact W]).
    repeat match type of H with (if ?c then _ else _) = _ => destruct c; [discriminate|] end.
    destruct (check_endpoints _ _ _); [|discriminate].
    destruct (o_fit _ _ _ _) as [d2 [[]|]] eqn:E; cbn [andthen] in H; [|discriminate].
    repeat match type of H with (if ?c then _ else _) = _ => destruct c; [discriminate|] end.
    destruct (search d2) as [vis x]. eapply optimise_frozen; [exact B| |exact H]. eapply (b_fit _ _ B); eauto. }
  split; [exact HF|]. split.
  - intros. apply C32_frozen_raises; auto.
  - intros s2 l2 u2 m2 kw fs2 d2 E. assert (F2 : o_frozen o d2 = true) by (eapply b_reparam_frozen; eauto).
    unfold maxent, valid_distribution. rewrite HC, E. cbn [andthen]. rewrite F2.
    repeat match goal with |- (if ?c then _ else _) = _ => destruct c; [reflexivity|] end. reflexivity.
Qed.

(** Whatever the optimiser tries, the object it leaves is configured by a call that gives every parameter the user had
    fixed (before the call or through [fixed_params]) its own value. *)
Lemma optimise_keeps {D} (o : object D) wf (B : behaves o wf) getattr names0 x : forall visited d d',
  wf d -> o_names o d = names0 -> NoDup names0 ->
  Forall (fun v => List.length v = List.length (free_names getattr names0)) (x :: visited) ->
  optimise o (List.length names0) (get_fixed_params getattr names0) visited x d = (d', Ok tt) ->
  exists kw dl, o_reparam o kw dl = (d', Ok tt) /\ map fst kw = names0 /\
    (forall k y, In k names0 -> getattr k = Some y -> dict_get kw k = Some y) /\
    Forall2 (fun k y => dict_get kw k = Some y) (free_names getattr names0) x.
Proof.
  destruct (get_fixed_params getattr names0) as [ni fx] eqn:EG.
  induction visited as [|v vs IH]; intros d d' W N ND HL H; cbn [optimise fst snd] in H; inversion HL as [|? ? Hx Hvs]; subst.
  - destruct (C26_fixed_and_free xr (o_names o d) getattr ni fx x ND EG Hx) as (kw & Ek & P). rewrite Ek in H. exists kw, d. auto.
  - inversion Hvs as [|? ? Hv Hvs']; subst.
    destruct (C26_fixed_and_free xr (o_names o d) getattr ni fx v ND EG Hv) as (kw & Ek & Kn & P). rewrite Ek in H.
    destruct (o_reparam o kw d) as [d2 [[]|]] eqn:E; cbn [andthen] in H; [|discriminate].
    assert (N2 : o_names o d2 = o_names o d) by (eapply b_reparam_full; eauto).
    apply (IH d2 d'); auto. eapply b_reparam_wf; eauto.
Qed.
Theorem C32_keeps_fixed : forall D (o : object D) wf default_mass search d lower upper mass fixed_params fixed_stat d1 d',
  behaves o wf -> wf d -> assigned o fixed_params d = (d1, Ok tt) ->
  (forall d2, Forall (fun v => List.length v = List.length (free_names (o_attr o d1) (o_names o d1))) (snd (search d2) :: fst (search d2))) ->
  maxent o default_mass search d lower upper mass fixed_params fixed_stat = (d', Ok tt) ->
  exists kw dl, o_reparam o kw dl = (d', Ok tt) /\ map fst kw = o_names o d1 /\
    (forall k y, In k (o_names o d1) -> o_attr o d1 k = Some y -> dict_get kw k = Some y).
Proof.
  intros D o wf dm search d lower upper mass fp fs d1 d' B W HA HS H.
  unfold maxent in H. destruct (valid_distribution o); [|discriminate]. unfold assigned in HA. rewrite HA in H. cbn [andthen] in H.
  assert (W1 : wf d1) by (destruct fp; [eapply b_reparam_wf; eauto|injection HA as <-; exact W]).
  repeat match type of H with (if ?c then _ else _) = _ => destruct c; [discriminate|] end.
  destruct (check_endpoints _ _ _); [|discriminate].
  destruct (o_fit _ _ _ _) as [d2 [[]|]] eqn:E; cbn [andthen] in H; [|discriminate].
  repeat match type of H with (if ?c then _ else _) = _ => destruct c; [discriminate|] end.
  specialize (HS d2). destruct (search d2) as [vis x]. cbn [fst snd] in HS.
  destruct (b_fit _ _ B _ _ _ _ W1 E) as (W2 & _ & N2 & L2). rewrite L2, N2 in H.
  destruct (optimise_keeps o wf B (o_attr o d1) (o_names o d1) x vis d2 d') as (kw & dl & A1 & A2 & A3 & _); auto.
  - eapply b_nodup; eauto.
  - exists kw, dl. auto.
Qed.

(* ---------------- the univariate families ---------------- *)
Definition opt_updates (opt : family -> dist -> R -> R -> res dist) : Prop :=
  forall f d m s d', opt f d m s = Ok d' -> exists u, update f d u = Ok d'.

Ltac some_update :=
  first [eexists [Some _]; reflexivity | eexists [Some _; Some _]; reflexivity | eexists [Some _; Some _; Some _]; reflexivity
        | eexists [Some _; Some _; Some _; Some _]; reflexivity].
Ltac peel H :=
  repeat match type of H with
  | bind ?r _ = Ok _ => let E := fresh "E" in destruct r as [?|] eqn:E; [cbn [bind] in H|discriminate H]
  | (let (_, _) := ?p in _) = Ok _ => destruct p
  | match ?x with Some _ => _ | None => _ end = Ok _ => destruct x; try discriminate H
  end.
Lemma fit_is_update eg gam opt f d m s d' : opt_updates opt -> fit_moments eg gam opt f d m s = Ok d' -> exists u, update f d u = Ok d'.
Proof.
  intros HO H. destruct f; cbn [fit_moments] in H; try (eapply HO; exact H);
    unfold al_fit, beta_fit, betascaled_fit, discreteuniform_fit, exponential_fit, gamma_fit, geometric_fit, gumbel_fit, halfnormal_fit,
      halfstudentt_fit, inversegamma_fit, laplace_fit, logistic_fit, logitnormal_fit, lognormal_fit, moyal_fit, pareto_fit,
      studentt_fit, triangular_fit, uniform_fit, wald_fit, weibull_fit in H; cbv zeta in H; peel H; injection H as <-; some_update.
Qed.
Lemma update_freezes f d u d' : update f d u = Ok d' -> frozen d' = true.
Proof.
  intro H. destruct f; cbn [update] in H;
    repeat match type of H with match ?x with _ => _ end = _ => destruct x; try discriminate end;
    unfold betabinomial_update, binomial_update, zib_update, hypergeometric_update in H; cbnH H; crunch H; cbnH H;
    try discriminate; inversion H; reflexivity.
Qed.

Lemma construct_names ptd f a d : construct ptd f a = Ok d -> In (names d) (sets f).
Proof.
  intro H. destruct f; revert H; unfold_construct; cbn [sets]; intro H; split_args a; cbnH H;
    try (match type of H with context [ptd ?x ?y] => destruct (ptd x y) end; cbnH H);
    unfold pyand in H; crunch H; cbnH H; try discriminate; inversion H; subst d; clear H; cbn [In names setN setA setAs setOs]; tauto.
Qed.
Lemma construct_full_names ptd f a P d : In P (sets f) ->
  Forall (fun k => match a k with Some _ => existsb (String.eqb k) P = true | None => existsb (String.eqb k) P = false end) (signature f) ->
  construct ptd f a = Ok d -> names d = P.
Proof.
  intros HP HK H. destruct f; cbn [sets In] in HP; repeat (destruct HP as [<-|HP]); try contradiction; cbn [signature] in HK;
    repeat match goal with HK : Forall _ (_ :: _) |- _ => let Q := fresh "Q" in pose proof (Forall_inv HK) as Q; apply Forall_inv_tail in HK; cbn beta in Q end;
    clear HK; revert H; unfold_construct; intro H;
    repeat match goal with Q : match a ?k with _ => _ end |- _ => destruct (a k); cbn in Q; try discriminate Q; clear Q end;
    cbnH H; try (match type of H with context [ptd ?x ?y] => destruct (ptd x y) end; cbnH H);
    unfold pyand in H; crunch H; cbnH H; try discriminate; inversion H; reflexivity.
Qed.

Lemma dict_get_some {A} (kw : list (string * A)) k : existsb (String.eqb k) (map fst kw) = true -> exists v, dict_get kw k = Some v.
Proof.
  induction kw as [|[k' v] kw IH]; cbn; [discriminate|]. destruct (String.eqb k k'); [eauto|]. cbn. exact IH.
Qed.
Lemma dict_get_none {A} (kw : list (string * A)) k : existsb (String.eqb k) (map fst kw) = false -> dict_get kw k = None.
Proof.
  induction kw as [|[k' v] kw IH]; cbn; [reflexivity|]. destruct (String.eqb k k'); [discriminate|]. cbn. exact IH.
Qed.

Lemma reparametrize_construct ptd f kw d d' : f <> BetaScaled -> reparametrize ptd f kw d = (d', Ok tt) ->
  exists c, construct ptd f (dict_get kw) = Ok c /\ d' = reconfigure f d c.
Proof.
  intros N H. unfold reparametrize in H. destruct (known_keywords f kw); cbn [negb] in H; [|discriminate].
  destruct f; try (exfalso; apply N; reflexivity);
    destruct (construct ptd _ (dict_get kw)) as [c0|] eqn:E; try discriminate;
    injection H as <-; exists c0; split; reflexivity || exact E.
Qed.
Lemma reparametrize_failed ptd f kw d d' e : reparametrize ptd f kw d = (d', Err e) -> d' = d.
Proof.
  unfold reparametrize. destruct (negb (known_keywords f kw)); [congruence|].
  destruct f; try (destruct (construct ptd _ (dict_get kw)); congruence).
  destruct (dict_get kw "alpha"); [destruct (dict_get kw "beta")|]; congruence.
Qed.
Lemma reparametrize_betascaled ptd kw d d' r : reparametrize ptd BetaScaled kw d = (d', r) ->
  (d' = d \/ d' = setN d ["alpha"; "beta"; "lower"; "upper"] \/
   exists a b lo up, d' = betascaled_update (setN d ["alpha"; "beta"; "lower"; "upper"]) (Some a) (Some b) lo up)%string.
Proof.
  unfold reparametrize. destruct (negb (known_keywords BetaScaled kw)); [intro H; injection H as <- _; tauto|].
  destruct (dict_get kw "alpha") as [a|]; [destruct (dict_get kw "beta") as [b|]|]; intro H; injection H as <- _; eauto 10.
Qed.
Lemma family_betascaled f : f = BetaScaled \/ f <> BetaScaled.
Proof. destruct f; (left; reflexivity) || (right; discriminate). Qed.
Lemma reparametrize_frozen ptd f kw d d' r : reparametrize ptd f kw d = (d', r) -> frozen d = true -> frozen d' = true.
Proof.
  intros H F. destruct r as [[]|e]; [|apply reparametrize_failed in H; congruence].
  destruct (family_betascaled f) as [->|N].
  - destruct (reparametrize_betascaled _ _ _ _ _ H) as [->|[->|(a & b & lo & up & ->)]]; try exact F. destruct lo, up; reflexivity.
  - destruct (reparametrize_construct _ _ _ _ _ N H) as (c & _ & ->). cbn. rewrite F. reflexivity.
Qed.
Lemma reparametrize_names ptd f kw d d' r : In (names d) (sets f) -> reparametrize ptd f kw d = (d', r) -> In (names d') (sets f).
Proof.
  intros W H. destruct r as [[]|e]; [|apply reparametrize_failed in H; congruence].
  destruct (family_betascaled f) as [->|N].
  - destruct (reparametrize_betascaled _ _ _ _ _ H) as [->|[->|(a & b & lo & up & ->)]]; try exact W; [cbn; tauto|].
    destruct lo, up; cbn; tauto.
  - destruct (reparametrize_construct _ _ _ _ _ N H) as (c & E & ->). cbn. eapply construct_names; eauto.
Qed.
Lemma reparametrize_full ptd f kw d d' : In (names d) (sets f) -> map fst kw = names d ->
  reparametrize ptd f kw d = (d', Ok tt) -> names d' = names d.
Proof.
  intros W K H. destruct (family_betascaled f) as [->|N].
  - assert (ND : names d = ["alpha"; "beta"; "lower"; "upper"]%string) by (cbn in W; intuition congruence).
    destruct (reparametrize_betascaled _ _ _ _ _ H) as [->|[->|(a & b & lo & up & ->)]]; [reflexivity|symmetry; exact ND|].
    rewrite ND. destruct lo, up; reflexivity.
  - destruct (reparametrize_construct _ _ _ _ _ N H) as (c & E & ->). cbn.
    eapply construct_full_names; eauto. apply Forall_forall. intros k _. rewrite <- K.
    destruct (existsb (String.eqb k) (map fst kw)) eqn:Ex.
    + destruct (dict_get_some kw k Ex) as [v ->]. reflexivity.
    + rewrite (dict_get_none kw k Ex). reflexivity.
Qed.

(** The univariate families behave: an instance whose names are one of the documented parameter sets stays one. *)
Theorem C32_families_behave : forall ptd euler_gamma gamma opt f, opt_updates opt ->
  behaves (family_object ptd euler_gamma gamma opt f) (fun d => In (names d) (sets f)).
Proof.
  intros ptd eg gam opt f HO. constructor; cbn.
  - intros d. apply sets_nodup.
  - intros m s d d' W H. destruct m; try discriminate. destruct s; try discriminate.
    destruct (fit_moments eg gam opt f d r r0) as [d2|] eqn:E; [|discriminate]. injection H as <-.
    destruct (fit_is_update _ _ _ _ _ _ _ _ HO E) as [u U]. destruct (C26_params_cover_names _ _ _ _ W U) as [L N].
    rewrite N at 1. split; [exact W|]. split; [eapply update_freezes; eauto|]. split; [exact N|exact L].
  - intros kw d d' r H F. exact (reparametrize_frozen ptd f kw d d' r H F).
  - intros kw d d' r W H. exact (reparametrize_names ptd f kw d d' r W H).
  - intros kw d d' W K H. exact (reparametrize_full ptd f kw d d' W K H).
Qed.
Example C32_families_applies : opt_updates (fun f d m s => Err RuntimeError).
Proof. intros f d m s d' H. discriminate. Qed.

(** A concrete call that is accepted and goes through: Normal() on [0, 10] with mass 0.9 and a search that ends at
    mean 5 and sd 3. *)
Definition demo_object : object dist := family_object (fun _ _ => (NaN, NaN)) 0 (fun _ => PInf) (fun _ _ _ _ => Err RuntimeError) Normal.
Definition demo_normal : dist := match construct (fun _ _ => (NaN, NaN)) Normal (fun _ => None) with Ok d => d | Err _ => fresh (NInf, PInf) end.
Example C32_accepts_applies : exists d',
  maxent demo_object (Fin 0.94) (fun _ => ([[Fin 4; Fin 2]], [Fin 5; Fin 3])) demo_normal (Fin 0) (Fin 10) (Some (Fin 0.9)) None None = (d', Ok tt) /\
  In (names demo_normal) (sets Normal) /\ params d' = [Some (Fin 5); Some (Fin 3)].
Proof.
  assert (A : ~ bad_maxent demo_object demo_normal 0 10 0.9 None).
  { intros [(s & v & H & _)|[H|[H|[H|[(a & H & _)|[(a & H & _)|[H _]]]]]]]; try discriminate; lra. }
  erewrite C32_accepts; [|reflexivity|reflexivity|exact A|reflexivity|discriminate|reflexivity].
  cbn -[to_precision]. eexists. split; [reflexivity|]. split; [auto|reflexivity].
Qed.
Example C32_rejects_applies : bad_maxent demo_object demo_normal 0 10 2 None.
Proof. right. left. lra. Qed.

(** The assignment of [fixed_params] happens before the checks, so it stays when the call is rejected. *)
Theorem C32_fixed_params_persist_refuted : exists d1,
  maxent demo_object (Fin 0.94) (fun _ => ([], [])) demo_normal (Fin 0) (Fin 10) (Some (Fin 2)) (Some [("mu"%string, Fin 3)]) None = (d1, Err ValueError) /\
  attr demo_normal "mu" = None /\ attr d1 "mu" = Some (Fin 3).
Proof.
  eexists. split.
  - eapply C32_rejects; [reflexivity|reflexivity|]. right. left. lra.
  - split; reflexivity.
Qed.

(** Every univariate family has a mode, so fixed_stat accepts "mode" wherever it accepts "mean". *)
Theorem C32_mode_accepted : forall ptd eg gam opt f default_mass search d lower upper mass fixed_params v v',
  maxent (family_object ptd eg gam opt f) default_mass search d lower upper mass fixed_params (Some ("mode"%string, v)) =
  maxent (family_object ptd eg gam opt f) default_mass search d lower upper mass fixed_params (Some ("mean"%string, v')).
Proof. reflexivity. Qed.

(** Giving an existing instance only some of its parameters: the reported parameters and whether it counts as complete stay
    as they were; so does the support, but for the families that set it from the bounds they are given. *)
Theorem C32_partial_assignment : forall ptd f kw d d' c, f <> BetaScaled -> reparametrize ptd f kw d = (d', Ok tt) ->
  construct ptd f (dict_get kw) = Ok c -> frozen c = false ->
  params d' = params d /\ frozen d' = frozen d /\ names d' = names c /\ (forall k, attr d' k = attr c k) /\
  supp d' = (if existsb (fun g => match g, f with
                                  | DiscreteUniform, DiscreteUniform | SkewStudentT, SkewStudentT | TruncatedNormal, TruncatedNormal
                                  | Uniform, Uniform | VonMises, VonMises => true | _, _ => false end)
                  [DiscreteUniform; SkewStudentT; TruncatedNormal; Uniform; VonMises] then supp c else supp d).
Proof.
  intros ptd f kw d d' c N H C F. destruct (reparametrize_construct _ _ _ _ _ N H) as (c' & C' & ->).
  rewrite C in C'. injection C' as <-. unfold reconfigure. rewrite F, orb_false_r. cbn [params frozen names attr supp orb].
  repeat split. destruct f; reflexivity.
Qed.
(** Uniform(0, 1) given another lower bound only. *)
Example C32_partial_applies : exists c, construct (fun _ _ => (NaN, NaN)) Uniform (dict_get [("lower"%string, Fin 3)]) = Ok c /\ frozen c = false /\
  exists c2, construct (fun _ _ => (NaN, NaN)) Pareto (dict_get [("m"%string, Fin 3)]) = Ok c2 /\ frozen c2 = false.
Proof. eexists. split; [reflexivity|]. split; [reflexivity|]. eexists. split; reflexivity. Qed.

(** An unknown name in [fixed_params] is a TypeError, for every family, and nothing is changed. *)
Theorem C32_unknown_keyword : forall ptd eg gam opt f default_mass search d lower upper mass kw fixed_stat k v,
  In (k, v) kw -> ~ In k (signature f) ->
  maxent (family_object ptd eg gam opt f) default_mass search d lower upper mass (Some kw) fixed_stat = (d, Err TypeError).
Proof.
  intros ptd eg gam opt f dm search d lower upper mass kw fs k v I N. unfold maxent. cbn [valid_distribution family_object o_categorical o_reparam].
  unfold reparametrize. replace (known_keywords f kw) with false; [reflexivity|]. symmetry. apply not_true_is_false. intro K.
  unfold known_keywords in K. rewrite forallb_forall in K. specialize (K _ I). cbn [fst] in K. apply N, existsb_in, K.
Qed.
(** FINDING. BetaScaled ignores [fixed_params] that do not have both alpha and beta: maxent goes on as if nothing had been
    fixed. *)
Theorem C32_betascaled_fixed_ignored_refuted : forall ptd eg gam opt default_mass search d lower upper mass kw fixed_stat,
  names d = ["alpha"; "beta"; "lower"; "upper"]%string -> (forall k v, In (k, v) kw -> In k (signature BetaScaled)) ->
  dict_get kw "alpha"%string = None \/ dict_get kw "beta"%string = None ->
  let o := family_object ptd eg gam opt BetaScaled in
  maxent o default_mass search d lower upper mass (Some kw) fixed_stat = maxent o default_mass search d lower upper mass None fixed_stat.
Proof.
  intros ptd eg gam opt dm search d lower upper mass kw fs ND K H o.
  assert (R : o_reparam o kw d = (d, Ok tt)).
  { cbn [o family_object o_reparam]. unfold reparametrize.
    replace (known_keywords BetaScaled kw) with true.
    2:{ symmetry. unfold known_keywords. apply forallb_forall. intros [k v] I. apply existsb_in. cbn [fst]. eapply K; eauto. }
    cbn [negb]. assert (E : setN d ["alpha"; "beta"; "lower"; "upper"]%string = d) by (unfold setN; rewrite <- ND; destruct d; reflexivity).
    rewrite E. destruct H as [->| ->]; [reflexivity|]. destruct (dict_get kw "alpha"%string); reflexivity. }
  unfold maxent. rewrite R. reflexivity.
Qed.
Example C32_betascaled_case : exists d, construct (fun _ _ => (NaN, NaN)) BetaScaled (dict_get [("lower", Fin 0); ("upper", Fin 10)]%string) = Ok d /\
  names d = ["alpha"; "beta"; "lower"; "upper"]%string /\ dict_get [("alpha", Fin 2)]%string "beta"%string = None.
Proof. eexists. split; [reflexivity|split; reflexivity]. Qed.

(** An endpoint that is nan passes all checks: the call goes on to fit. *)
Theorem C32_nan_endpoint_refuted : forall D (o : object D) default_mass search d upper mass,
  o_categorical o = false -> 0 < mass <= 1 -> o_frozen o d = false ->
  (forall b, snd (o_supp o d) = Fin b -> upper <= b) ->
  maxent o default_mass search d NaN (Fin upper) (Some (Fin mass)) None None =
  andthen (o_fit o NaN NaN d) (fun d2 => let '(visited, x) := search d2 in
    optimise o (o_nparams o d2) (get_fixed_params (o_attr o d) (o_names o d)) visited x d2).
Proof.
  intros D o dm search d upper mass HC HM HF HU. unfold maxent, valid_distribution. rewrite HC. cbn [andthen].
  assert (E : (xltb (Fin 0) (Fin mass) && xleb (Fin mass) (Fin 1))%bool = true).
  { apply andb_true_iff. split; [cbn; apply Rltb_true; lra|apply xleb_fin; lra]. }
  rewrite E, HF. cbn [negb xleb xltb xeqb orb].
  assert (C : check_endpoints (o_supp o d) NaN (Fin upper) = Ok tt).
  { unfold check_endpoints. destruct (o_supp o d) as [sl su]. cbn [snd] in HU.
    replace (xisfinite sl && xltb NaN sl)%bool with false by (destruct sl; reflexivity).
    replace (xisfinite su && xltb su (Fin upper))%bool with false.
    2:{ destruct su; try reflexivity. cbn. symmetry. apply Rltb_false. auto. }
    destruct sl, su; reflexivity. }
  rewrite C. reflexivity.
Qed.
(** A request to fix the mode of a distribution without one is only rejected after the moment fit, which has frozen the
    object by then. *)
Theorem C32_missing_mode_freezes_refuted : forall D (o : object D) wf default_mass search d lower upper mass v d2,
  behaves o wf -> wf d -> o_categorical o = false ->
  ~ bad_maxent o d lower upper mass (Some ("mode"%string, v)) ->
  o_fit o (Fin ((lower + upper) / 2)) (Fin ((upper - lower) / 4 / mass)) d = (d2, Ok tt) -> o_has_mode o d2 = false ->
  maxent o default_mass search d (Fin lower) (Fin upper) (Some (Fin mass)) None (Some ("mode"%string, v)) = (d2, Err ValueError) /\
  o_frozen o d2 = true.
Proof.
  intros D o wf dm search d lower upper mass v d2 B W HC HB HF HM. split; [|eapply (b_fit _ _ B); eauto].
  unfold maxent, valid_distribution. rewrite HC. cbn [andthen].
  assert (M : 0 < mass <= 1).
  { destruct (Rlt_dec 0 mass), (Rle_dec mass 1); try lra; exfalso; apply HB; right; left; lra. }
  change (negb (existsb (String.eqb "mode") valid_stats)) with false.
  replace (xltb (Fin 0) (Fin mass) && xleb (Fin mass) (Fin 1))%bool with true.
  2:{ symmetry. apply andb_true_iff. split; [cbn; apply Rltb_true; lra|apply xleb_fin; lra]. }
  cbn [negb]. destruct (xleb (Fin upper) (Fin lower)) eqn:E3.
  { exfalso. apply HB. right. right. left. apply xleb_fin. exact E3. }
  destruct (o_frozen o d) eqn:E4; [exfalso; apply HB; unfold bad_maxent; tauto|].
  destruct (check_endpoints_outside (o_supp o d) lower upper) as [[_ N]|[C _]]; [exfalso; apply HB; unfold bad_maxent; tauto|].
  rewrite C.
  assert (A1 : xdiv (xadd (Fin lower) (Fin upper)) (Fin 2) = Fin ((lower + upper) / 2)).
  { cbn. rewrite Reqb_false by lra. reflexivity. }
  assert (A2 : xdiv (xdiv (xsub (Fin upper) (Fin lower)) (Fin 4)) (Fin mass) = Fin ((upper - lower) / 4 / mass)).
  { cbn. rewrite (Reqb_false 4 0) by lra. cbn. rewrite Reqb_false by lra. reflexivity. }
  rewrite A1, A2, HF. cbn [andthen]. rewrite HM. reflexivity.
Qed.

(* ---------------- C33 ---------------- *)
Definition bad_quartile {D} (o : object D) (d : D) (q1 q2 q3 : R) : Prop :=
  ~ (q1 < q2 < q3) \/ o_frozen o d = true \/ outside (o_supp o d) q1 q3.
(** quartile rejects exactly these (and nan quartiles) before anything is fitted. *)
Theorem C33_rejects : forall D (o : object D) search d q1 q2 q3 fixed_params d1,
  o_categorical o = false -> assigned o fixed_params d = (d1, Ok tt) ->
  (bad_quartile o d1 q1 q2 q3 -> quartile o search d (Fin q1) (Fin q2) (Fin q3) fixed_params = (d1, Err ValueError)) /\
  (~ bad_quartile o d1 q1 q2 q3 -> forall d2 visited x,
     o_fit o (Fin q2) (Fin ((q3 - q1) / 1.35)) d1 = (d2, Ok tt) -> search d2 = (visited, x) ->
     quartile o search d (Fin q1) (Fin q2) (Fin q3) fixed_params =
     optimise o (o_nparams o d2) (get_fixed_params (o_attr o d1) (o_names o d1)) visited x d2).
Proof.
  intros D o search d q1 q2 q3 fp d1 HC HA. unfold quartile, valid_distribution. rewrite HC.
  unfold assigned in HA. rewrite HA. cbn [andthen xltb].
  destruct (Rltb_spec q1 q2) as [H1|H1]; [|split; [reflexivity|intro H; exfalso; apply H; left; lra]].
  destruct (Rltb_spec q2 q3) as [H2|H2]; [|split; [reflexivity|intro H; exfalso; apply H; left; lra]].
  cbn [andb negb]. unfold bad_quartile. destruct (o_frozen o d1) eqn:F; [split; [reflexivity|intro H; exfalso; tauto]|].
  destruct (check_endpoints_outside (o_supp o d1) q1 q3) as [[C N]|[C N]]; rewrite C.
  - split; [reflexivity|intro H; exfalso; tauto].
  - split; [intros [H|[H|H]]; [lra|discriminate|contradiction]|]. intros _ d2 vis x HF HS.
    assert (A : xdiv (xsub (Fin q3) (Fin q1)) (Fin 1.35) = Fin ((q3 - q1) / 1.35)).
    { cbn. rewrite Reqb_false by lra. reflexivity. }
    rewrite A, HF. cbn [andthen]. rewrite HS. reflexivity.
Qed.
Example C33_applies : bad_quartile demo_object demo_normal 1 3 2 /\ ~ bad_quartile demo_object demo_normal 1 2 3.
Proof.
  split; [left; lra|]. intros [H|[H|[(a & H & _)|[(a & H & _)|[H _]]]]]; try discriminate. lra.
Qed.
(** nan quartiles are rejected too. *)
Theorem C33_nan_rejected : forall D (o : object D) search d q1 q2 q3,
  o_categorical o = false -> q1 = NaN \/ q2 = NaN \/ q3 = NaN ->
  quartile o search d q1 q2 q3 None = (d, Err ValueError).
Proof.
  intros D o search d q1 q2 q3 HC H. unfold quartile, valid_distribution. rewrite HC. cbn [andthen].
  assert (E : (xltb q1 q2 && xltb q2 q3)%bool = false).
  { destruct H as [-> | [-> | ->]]; [reflexivity| |].
    - destruct q1; reflexivity.
    - replace (xltb q2 NaN) with false by (destruct q2; reflexivity). apply andb_false_r. }
  rewrite E. reflexivity.
Qed.
(** The user's fixed parameters survive, and a frozen object is rejected, as for maxent. *)
Theorem C33_keeps_fixed : forall D (o : object D) wf search d q1 q2 q3 fixed_params d1 d',
  behaves o wf -> wf d -> assigned o fixed_params d = (d1, Ok tt) ->
  (forall d2, Forall (fun v => List.length v = List.length (free_names (o_attr o d1) (o_names o d1))) (snd (search d2) :: fst (search d2))) ->
  quartile o search d q1 q2 q3 fixed_params = (d', Ok tt) ->
  (exists kw dl, o_reparam o kw dl = (d', Ok tt) /\ map fst kw = o_names o d1 /\
    (forall k y, In k (o_names o d1) -> o_attr o d1 k = Some y -> dict_get kw k = Some y)) /\
  o_frozen o d' = true /\
  (forall search2 q1' q2' q3', quartile o search2 d' q1' q2' q3' None = (d', Err ValueError)).
Proof.
  intros D o wf search d q1 q2 q3 fp d1 d' B W HA HS H.
  assert (HC : o_categorical o = false).
  { unfold quartile, valid_distribution in H. destruct (o_categorical o); [injection H as _ H; discriminate|reflexivity]. }
  unfold quartile in H. destruct (valid_distribution o); [|discriminate]. unfold assigned in HA. rewrite HA in H. cbn [andthen] in H.
  assert (W1 : wf d1) by (destruct fp; [eapply b_reparam_wf; eauto|injection HA as <-; exact W]).
  repeat match type of H with (if ?c then _ else _) = _ => destruct c; [discriminate|] end.
  destruct (check_endpoints _ _ _); [|discriminate].
  destruct (o_fit _ _ _ _) as [d2 [[]|]] eqn:E; cbn [andthen] in H; [|discriminate].
  specialize (HS d2). destruct (search d2) as [vis x]. cbn [fst snd] in HS.
  destruct (b_fit _ _ B _ _ _ _ W1 E) as (W2 & F2 & N2 & L2). rewrite L2, N2 in H.
  assert (F' : o_frozen o d' = true) by (eapply optimise_frozen; eauto).
  split; [|split; [exact F'|]].
  - destruct (optimise_keeps o wf B (o_attr o d1) (o_names o d1) x vis d2 d') as (kw & dl & A1 & A2 & A3 & _); auto.
    + eapply b_nodup; eauto.
    + exists kw, dl. auto.
  - intros s2 qa qb qc. unfold quartile, valid_distribution. rewrite HC. cbn [andthen]. rewrite F'.
    repeat match goal with |- (if ?c then _ else _) = _ => destruct c; [reflexivity|] end. reflexivity.
Qed.

(* ---------------- C34 ---------------- *)
(** Matching a distribution to a distribution: for every string of valid letters, position by position, the two values
    compared are the same moment of the two distributions. *)
Theorem C34_distribution_source : forall (source fitted : moment_methods xr) types target,
  moments source types = Ok target ->
  exists pairs, compared fitted types target = Ok pairs /\
    Forall2 (fun c p => In (c, fst p) (moment_names fitted) /\ In (c, snd p) (moment_names source)) (list_ascii_of_string types) pairs.
Proof.
  intros src fit types. unfold compared.
  assert (G : forall target, moments src types = Ok target -> exists vals, moments fit types = Ok vals /\ List.length vals = List.length target /\
     Forall2 (fun c p => In (c, fst p) (moment_names fit) /\ In (c, snd p) (moment_names src)) (list_ascii_of_string types) (combine vals target)).
  { induction types as [|c r IH]; intros target H; cbn [moments] in H.
    - injection H as <-. exists []. repeat split; constructor.
    - unfold moment_of in H at 1. cbn [moments]. unfold moment_of at 1.
      destruct (moments src r) as [ms|] eqn:E.
      + destruct (IH ms eq_refl) as (vs & A & L & F). rewrite A.
        unfold moment_names in *.
        destruct (Ascii.eqb_spec c "m"); [subst; injection H as <-; cbn [bind]; eexists; split; [reflexivity|]; split; [cbn; congruence|]; constructor; [cbn; auto 10|exact F]|].
        destruct (Ascii.eqb_spec c "d"); [subst; injection H as <-; cbn [bind]; eexists; split; [reflexivity|]; split; [cbn; congruence|]; constructor; [cbn; auto 10|exact F]|].
        destruct (Ascii.eqb_spec c "v"); [subst; injection H as <-; cbn [bind]; eexists; split; [reflexivity|]; split; [cbn; congruence|]; constructor; [cbn; auto 10|exact F]|].
        destruct (Ascii.eqb_spec c "s"); [subst; injection H as <-; cbn [bind]; eexists; split; [reflexivity|]; split; [cbn; congruence|]; constructor; [cbn; auto 10|exact F]|].
        destruct (Ascii.eqb_spec c "k"); [subst; injection H as <-; cbn [bind]; eexists; split; [reflexivity|]; split; [cbn; congruence|]; constructor; [cbn; auto 10|exact F]|].
        discriminate.
      + exfalso. repeat match type of H with context [Ascii.eqb ?a ?b] => destruct (Ascii.eqb a b) end; discriminate. }
  intros target H. destruct (G target H) as (vals & A & L & F). rewrite A. cbn [bind]. unfold broadcast. rewrite L, Nat.eqb_refl. eauto.
Qed.
Example C34_distribution_applies : moments {| f_mean := Fin 1; f_std := Fin 2; f_var := Fin 4; f_skew := Fin 0; f_kurt := Fin 3 |} "kvm" = Ok [Fin 3; Fin 4; Fin 1].
Proof. reflexivity. Qed.

(** The moment of a sample named by a letter, with the conventions of the distributions' methods: kurtosis is excess
    kurtosis. *)
Definition central (l : list R) (k : nat) : R := Rsum (map (fun x => (x - Rsum l / INR (List.length l)) ^ k) l) / INR (List.length l).
Definition sample_moments (l : list R) : moment_methods xr :=
  {| f_mean := Fin (Rsum l / INR (List.length l));
     f_var := Fin (central l 2);
     f_std := Fin (sqrt (central l 2));
     f_skew := Fin (central l 3 / sqrt (central l 2) ^ 3);
     f_kurt := Fin (central l 4 / central l 2 ^ 2 - 3) |}.

Lemma np_var_central l : np_var l = central l 2.
Proof. unfold np_var, central. unfold np_mean at 1. rewrite map_length. reflexivity. Qed.
Lemma np_std_central l : np_std l = sqrt (central l 2).
Proof. unfold np_std. rewrite np_var_central. reflexivity. Qed.
Lemma np_standardised_central l k : 0 < central l 2 -> np_standardised l k = central l k / sqrt (central l 2) ^ k.
Proof.
  intro H. pose proof (sqrt_lt_R0 _ H) as HS.
  pose proof (np_std_central l) as E.
  unfold np_standardised. rewrite E. unfold np_mean at 1. rewrite map_length.
  unfold central at 2. unfold np_mean.
  rewrite (Rsum_map_ext _ (fun x => (x - Rsum l / INR (List.length l)) ^ k / sqrt (central l 2) ^ k)).
  2:{ intros x _. unfold Rdiv at 1. rewrite Rpow_mult_distr. rewrite pow_inv by lra. reflexivity. }
  rewrite Rsum_map_div. unfold Rdiv. ring.
Qed.

(** Matching a distribution to an array, with the letters given in the order m, v, d, s and none repeated: position by
    position, the value of the fitted distribution is compared with the same moment of the sample. *)
Definition ordered_letters (m v d s : bool) : string :=
  ((if m then "m" else "") ++ (if v then "v" else "") ++ (if d then "d" else "") ++ (if s then "s" else ""))%string.
Theorem C34_array_source : forall (fitted : moment_methods xr) l m v d s, 0 < central l 2 ->
  let types := ordered_letters m v d s in
  exists pairs, compared fitted types (sample_targets l types) = Ok pairs /\
    Forall2 (fun c p => In (c, fst p) (moment_names fitted) /\ In (c, snd p) (moment_names (sample_moments l))) (list_ascii_of_string types) pairs.
Proof.
  intros fitted l m v d s HP types. unfold types, sample_targets. rewrite (np_standardised_central l 3 HP).
  rewrite np_std_central, np_var_central.
  change (np_mean l) with (Rsum l / INR (List.length l)).
  generalize (np_standardised l 4). intro k4. unfold sample_moments. unfold moment_names.
  destruct m, v, d, s; cbn -[central sqrt Rdiv pow INR]; (eexists; split; [reflexivity|]); repeat apply Forall2_cons; try apply Forall2_nil; split; cbn [fst snd f_mean f_std f_var f_skew f_kurt In]; auto 10.
Qed.
Example C34_array_applies : 0 < central [-1; 1] 2.
Proof. unfold central, Rsum. cbn. lra. Qed.

(** Kurtosis is compared with something else: the target from an array is the sample's kurtosis without the 3
    subtracted, so it is always three more than what the fitted distribution reports. *)
Theorem C34_array_kurtosis_refuted : forall l, 0 < central l 2 -> exists t k,
  sample_targets l "k" = [Fin t] /\ f_kurt (sample_moments l) = Fin k /\ t = k + 3.
Proof.
  intros l H. eexists. eexists. split; [reflexivity|]. split; [reflexivity|].
  rewrite (np_standardised_central l 4 H).
  replace (sqrt (central l 2) ^ 4) with (central l 2 ^ 2); [lra|].
  replace (sqrt (central l 2) ^ 4) with ((sqrt (central l 2) ^ 2) ^ 2) by ring. rewrite pow2_sqrt by lra. reflexivity.
Qed.
(** In any other order the targets are permuted: with "vm" the variance is compared with the mean of the sample. *)
Theorem C34_array_order_refuted : forall (fitted : moment_methods xr) l,
  compared fitted "vm" (sample_targets l "vm") = Ok [(f_var fitted, Fin (np_mean l)); (f_mean fitted, Fin (np_var l))].
Proof. reflexivity. Qed.
(** One finite target is enough to pass the check, although the message asks for all to be finite. *)
Theorem C34_any_finite_refuted : exists t, targets_checked t = Ok t /\ In NaN t.
Proof. exists [Fin 1; NaN]. split; [reflexivity|cbn; auto]. Qed.
(** What the check does guarantee: at least one target is finite. *)
Theorem C34_some_target_finite : forall t, targets_checked t = Ok t <-> exists r, In (Fin r) t.
Proof.
  intro t. unfold targets_checked. destruct (existsb xisfinite t) eqn:E; cbn [negb].
  - split; [|reflexivity]. intros _. apply existsb_exists in E. destruct E as (x & H & Hx). destruct x; try discriminate. eauto.
  - split; [discriminate|]. intros [r H]. rewrite (proj2 (existsb_exists _ _)) in E; [discriminate|]. exists (Fin r). auto.
Qed.
Example C34_some_applies : targets_checked [NaN; PInf] = Err ValueError.
Proof. reflexivity. Qed.

(* ---------------- C49 ---------------- *)
(** match_moments and match_quantiles: a source that is a distribution but not complete is rejected, as are targets that
    cannot be computed, before the target distribution is touched. *)
Theorem C49_source_checked : forall D (o : object D) search target mean std d,
  o_categorical o = false ->
  match_to o search (Some false) target mean std d = (d, Err ValueError) /\
  (forall sf e, sf <> Some false -> match_to o search sf (Err e) mean std d = (d, Err e)).
Proof.
  intros D o search target mean std d HC. unfold match_to, valid_distribution. rewrite HC. split; [reflexivity|].
  intros [[|]|] e H; try reflexivity. congruence.
Qed.
(** Whatever the optimiser does, the fixed parameters of the target distribution keep their values; in particular a
    target with no free parameter ends with the values it had. *)
Theorem C49_keeps_fixed : forall D (o : object D) wf search sf target mean std d d',
  behaves o wf -> wf d ->
  (forall d2, Forall (fun v => List.length v = List.length (free_names (o_attr o d) (o_names o d))) (snd (search d2) :: fst (search d2))) ->
  match_to o search sf target mean std d = (d', Ok tt) ->
  exists kw dl, o_reparam o kw dl = (d', Ok tt) /\ map fst kw = o_names o d /\
    (forall k y, In k (o_names o d) -> o_attr o d k = Some y -> dict_get kw k = Some y).
Proof.
  intros D o wf search sf target mean std d d' B W HS H.
  unfold match_to in H. destruct (valid_distribution o); [|discriminate].
  assert (H' : andthen (o_fit o mean std d) (fun d2 => let '(visited, x) := search d2 in
     optimise o (o_nparams o d2) (get_fixed_params (o_attr o d) (o_names o d)) visited x d2) = (d', Ok tt)).
  { destruct sf as [[|]|]; try discriminate; destruct target; try discriminate; exact H. }
  clear H. rename H' into H.
  destruct (o_fit _ _ _ _) as [d2 [[]|]] eqn:E; cbn [andthen] in H; [|discriminate].
  specialize (HS d2). destruct (search d2) as [vis x]. cbn [fst snd] in HS.
  destruct (b_fit _ _ B _ _ _ _ W E) as (W2 & F2 & N2 & L2). rewrite L2, N2 in H.
  destruct (optimise_keeps o wf B (o_attr o d) (o_names o d) x vis d2 d') as (kw & dl & A1 & A2 & A3 & _); auto.
  - eapply b_nodup; eauto.
  - exists kw, dl. auto.
Qed.
Example C49_applies : exists d', match_to demo_object (fun _ => ([], [Fin 5; Fin 3])) None (Ok [Fin 1]) (Fin 1) (Fin 2) demo_normal = (d', Ok tt).
Proof. unfold match_to. cbn -[to_precision]. eexists. reflexivity. Qed.
(** Quantiles are rejected exactly when one of them is outside the open unit interval; nan slips through. *)
Theorem C49_quantiles_checked : forall qs : list R,
  check_quantiles (map Fin qs) = (if forallb (fun q => Rltb 0 q && Rltb q 1) qs then Ok (map Fin qs) else Err ValueError) /\
  (check_quantiles (map Fin qs) = Err ValueError <-> exists q, In q qs /\ ~ (0 < q < 1)).
Proof.
  intro qs. assert (G : existsb (fun q => xleb q (Fin 0) || xleb (Fin 1) q) (map Fin qs) = negb (forallb (fun q => Rltb 0 q && Rltb q 1) qs)).
  { induction qs as [|q qs IH]; [reflexivity|]. cbn [map existsb forallb]. rewrite IH, negb_andb. f_equal.
    unfold xleb. cbn. destruct (Rltb_spec q 0), (Reqb_spec q 0), (Rltb_spec 1 q), (Reqb_spec 1 q), (Rltb_spec 0 q), (Rltb_spec q 1); cbn; try reflexivity; lra. }
  unfold check_quantiles. rewrite G. destruct (forallb _ qs) eqn:E; cbn [negb]; (split; [reflexivity|]).
  - split; [discriminate|]. intros (q & H & N). rewrite forallb_forall in E. specialize (E q H). apply andb_true_iff in E. destruct E as [E1 E2].
    apply Rltb_lt in E1, E2. lra.
  - split; [|reflexivity]. intros _. clear G. induction qs as [|q qs IH]; [discriminate|]. cbn [forallb] in E.
    apply andb_false_iff in E. destruct E as [E|E].
    + exists q. split; [left; reflexivity|]. apply andb_false_iff in E. destruct E as [E|E]; apply Rltb_ge in E; lra.
    + destruct (IH E) as (q' & H & N). exists q'. split; [right; exact H|exact N].
Qed.
Example C49_quantiles_applies : exists q, In q [0.5; 1] /\ ~ (0 < q < 1).
Proof. exists 1. split; [cbn; auto|lra]. Qed.
(** A quantile that is nan passes the check. *)
Theorem C49_nan_quantile_refuted : check_quantiles [NaN] = Ok [NaN].
Proof. reflexivity. Qed.

Print Assumptions C32_rejects.
Print Assumptions C32_mode_accepted.
Print Assumptions C32_partial_assignment.
Print Assumptions C32_accepts.
Print Assumptions C32_second_call_raises.
Print Assumptions C32_keeps_fixed.
Print Assumptions C32_families_behave.
Print Assumptions C33_rejects.
Print Assumptions C34_distribution_source.
Print Assumptions C34_array_source.
Print Assumptions C49_keeps_fixed.
Print Assumptions C32_unknown_keyword.
Print Assumptions C32_betascaled_fixed_ignored_refuted.
