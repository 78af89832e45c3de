(** C87: eliciting modified distributions. *)
From Coq Require Import List Bool String Ascii Reals Lra Lia.
From Verif Require Import Base RLists XR FamModel FamSpec FamProofs FamHistory FamProps FitModel FitProps LawModel OptModel OptProps OptFamProps ApiModel ApiProps WrapModel.
Import ListNotations.
Open Scope string_scope.
Open Scope R_scope.

(* ------------------------------------------------------------ specification *)
(** What the wrapped object is assumed to do; shown below for the univariate families. *)
Record wrappable {D} (b : object D) (bparams : D -> option (list (option xr))) (m : modifier) (wf : D -> Prop) : Prop := {
  wr_behaves : behaves b wf;
  wr_names : forall d, wf d -> o_names b d <> [] /\ forall k, In k (own_names m) -> ~ In k (o_names b d);
  wr_fit : forall mean sigma d d', wf d -> o_fit b mean sigma d = (d', Ok tt) ->
    exists vs, bparams d' = Some (map Some vs) /\ List.length vs = List.length (o_names b d') }.

(** The part of the support between the bounds. *)
Definition between (s : xr * xr) (lower upper : xr) : xr * xr := (w_max (fst s) lower, w_min (snd s) upper).

(** The modifier [w'] holds the values [own] for its own parameters, on top of the base it has: its support follows, and
    Censored keeps its bounds within the support of the base. *)
Definition holds_own {D} (b : object D) (m : modifier) (own : string -> option xr) (w' : wob D) : Prop :=
  match m with
  | Hurd => wb_attr w' "psi" = Some (own "psi") /\ wb_supp w' = o_supp b (wb_base w')
  | Trunc => exists lo up, own "lower" = Some lo /\ own "upper" = Some up /\
      wb_attr w' "lower" = Some (Some lo) /\ wb_attr w' "upper" = Some (Some up) /\ wb_supp w' = between (o_supp b (wb_base w')) lo up
  | Cens => exists lo up, own "lower" = Some lo /\ own "upper" = Some up /\ wb_supp w' = between (o_supp b (wb_base w')) lo up /\
      wb_attr w' "lower" = Some (Some (fst (wb_supp w'))) /\ wb_attr w' "upper" = Some (Some (snd (wb_supp w')))
  end.

(** A modifier whose parameters are those of its base followed by its own. *)
Definition sound {D} (b : object D) (m : modifier) (wf : D -> Prop) (w : wob D) : Prop :=
  wf (wb_base w) /\ wb_names w = (o_names b (wb_base w) ++ own_names m)%list /\
  match m with Hurd => True | _ => flat (wb_attr w "lower") <> None /\ flat (wb_attr w "upper") <> None end.

(** What an elicitation leaves of a modifier [w]: [kw] gives every parameter fixed in [w] its own value and the free ones
    the values [x] found; the base was configured with those of its names, and the modifier holds its own. *)
Definition elicited {D} (b : object D) (m : modifier) (w : wob D) (x : list xr) (w' : wob D) : Prop :=
  wb_frozen w' = true /\ wb_names w' = wb_names w /\
  exists kw kwb dl,
    map fst kw = wb_names w /\
    (forall k y, In k (wb_names w) -> flat (wb_attr w k) = Some y -> dict_get kw k = Some y) /\
    Forall2 (fun k y => dict_get kw k = Some y) (free_names (fun k => flat (wb_attr w k)) (wb_names w)) x /\
    map fst kwb = o_names b (wb_base w) /\ (forall k, In k (o_names b (wb_base w)) -> dict_get kwb k = dict_get kw k) /\
    o_reparam b kwb dl = (wb_base w', Ok tt) /\
    holds_own b m (dict_get kw) w'.

(* ------------------------------------------------------------ lemmas *)
Lemma set_attrs_app l r a : set_attrs (l ++ r) a = set_attrs r (set_attrs l a).
Proof. revert a. induction l as [|[k v] l IH]; intro a; [reflexivity|]. cbn. apply IH. Qed.
Lemma values_some (l : list (string * xr)) : values (map (fun kv => (fst kv, Some (snd kv))) l) = l.
Proof. induction l as [|[k v] l IH]; [reflexivity|]. cbn. rewrite IH. reflexivity. Qed.
Lemma values_combine ns vs : values (combine ns (map Some vs)) = combine ns vs.
Proof. revert vs. induction ns as [|n ns IH]; intros [|v vs]; try reflexivity. cbn. rewrite IH. reflexivity. Qed.
Lemma lookup_some (l : list (string * xr)) k : flat (lookup (map (fun kv => (fst kv, Some (snd kv))) l) k) = dict_get l k.
Proof. induction l as [|[k' v] l IH]; [reflexivity|]. cbn. destruct (String.eqb k k'); [reflexivity|exact IH]. Qed.
Lemma all_some (l : list xr) : all_not_none (map Some l) = true.
Proof. unfold all_not_none. induction l; [reflexivity|]. cbn. exact IHl. Qed.
Lemma filter_map {A B} (g : A -> B) (p : B -> bool) l : filter p (map g l) = map g (filter (fun x => p (g x)) l).
Proof. induction l; [reflexivity|]. cbn. destruct (p (g a)); cbn; rewrite IHl; reflexivity. Qed.
Lemma is_own_in m k : is_own m k = true <-> In k (own_names m).
Proof.
  unfold is_own. rewrite existsb_exists. split.
  - intros (x & H & E). apply String.eqb_eq in E. subst. exact H.
  - intro H. exists k. split; [exact H|apply String.eqb_refl].
Qed.
Lemma filter_base m (kw : list (string * xr)) bn : map fst kw = (bn ++ own_names m)%list ->
  (forall k, In k (own_names m) -> ~ In k bn) -> map fst (filter (fun kv => negb (is_own m (fst kv))) kw) = bn.
Proof.
  revert bn. induction kw as [|[k v] kw IH]; intros bn H N.
  - destruct bn; [reflexivity|discriminate H].
  - destruct bn as [|n bn].
    + assert (Q : forall l : list (string * xr), (forall x, In x (map fst l) -> In x (own_names m)) ->
                filter (fun kv => negb (is_own m (fst kv))) l = []).
      { induction l as [|[k0 v0] l IHl]; intro K; [reflexivity|]. cbn [filter fst].
        replace (is_own m k0) with true; [cbn; apply IHl; intros x Hx; apply K; right; exact Hx|].
        symmetry. apply is_own_in. apply K. left. reflexivity. }
      rewrite Q; [reflexivity|]. rewrite H. auto.
    + cbn in H. injection H as -> H. cbn [filter fst]. destruct (is_own m n) eqn:E; [apply is_own_in in E; exfalso; apply (N n E); left; reflexivity|].
      cbn. f_equal. apply IH; [exact H|]. intros k0 Hk0 Hi. apply (N k0 Hk0). right. exact Hi.
Qed.
Lemma dict_get_filter m (kw : list (string * xr)) k : is_own m k = false ->
  dict_get (filter (fun kv => negb (is_own m (fst kv))) kw) k = dict_get kw k.
Proof.
  intro H. induction kw as [|[k' v] kw IH]; [reflexivity|]. cbn [filter fst].
  destruct (is_own m k') eqn:E; cbn [negb dict_get].
  - destruct (String.eqb_spec k k'); [congruence|exact IH].
  - rewrite IH. reflexivity.
Qed.
Lemma dict_get_keys (kw : list (string * xr)) k : In k (map fst kw) -> exists v, dict_get kw k = Some v.
Proof.
  induction kw as [|[k' v] kw IH]; cbn; [contradiction|]. intro H. destruct (String.eqb_spec k k'); [eauto|].
  destruct H as [->|H]; [congruence|auto].
Qed.

Section Wrapped.
Context {D : Type} (b : object D) (bparams : D -> option (list (option xr))) (m : modifier) (wf : D -> Prop).
Hypothesis R : wrappable b bparams m wf.
Notation obj := (wrap_object b bparams m).

(** A call that gives all the parameters. *)
Lemma wcall_full kw w w' : wf (wb_base w) -> map fst kw = (o_names b (wb_base w) ++ own_names m)%list ->
  o_reparam obj kw w = (w', Ok tt) ->
  wf (wb_base w') /\ wb_names w' = map fst kw /\ o_names b (wb_base w') = o_names b (wb_base w) /\
  List.length (wb_params w') = List.length (wb_names w') /\ wb_frozen w' = true /\
  (exists kwb, map fst kwb = o_names b (wb_base w) /\ (forall k, In k (o_names b (wb_base w)) -> dict_get kwb k = dict_get kw k) /\
     o_reparam b kwb (wb_base w) = (wb_base w', Ok tt)) /\
  holds_own b m (dict_get kw) w' /\
  match m with Hurd => True | _ => flat (wb_attr w' "lower") <> None /\ flat (wb_attr w' "upper") <> None end.
Proof.
  intros W K H. destruct (wr_names _ _ _ _ R _ W) as [NE DJ].
  set (kwb := filter (fun kv => negb (is_own m (fst kv))) kw).
  assert (KB : map fst kwb = o_names b (wb_base w)) by (apply filter_base; assumption).
  assert (OWN : forall k, In k (own_names m) -> exists v, dict_get kw k = Some v).
  { intros k Hk. apply dict_get_keys. rewrite K. apply in_or_app. right. exact Hk. }
  assert (GB : forall k, In k (o_names b (wb_base w)) -> dict_get kwb k = dict_get kw k).
  { intros k Hk. apply dict_get_filter. destruct (is_own m k) eqn:E; [|reflexivity]. apply is_own_in in E. destruct (DJ k E Hk). }
  cbn [o_reparam wrap_object] in H. unfold wcall in H.
  rewrite filter_map in H. cbn [fst] in H. fold kwb in H. unfold wparam in H.
  assert (Q : map (fun kv : string * xr => (fst kv, Some (snd kv))) kwb <> []).
  { destruct kwb; [|discriminate]. cbn in KB. congruence. }
  remember (map (fun kv : string * xr => (fst kv, Some (snd kv))) kwb) as sk eqn:ES.
  assert (NB : forall (A : list (string * option xr)), match sk with [] => A | _ :: _ => sk end = sk) by (intro A; destruct sk; [congruence|reflexivity]).
  rewrite NB in H. clear NB Q.
  assert (AN : all_not_none (map snd sk) = true).
  { subst sk. rewrite map_map. cbn [snd]. rewrite <- (map_map snd Some). apply all_some. }
  rewrite AN in H. clear AN. rewrite ES, values_some, !lookup_some in H.
  destruct (o_reparam b kwb (wb_base w)) as [d' [[]|e]] eqn:E; [|discriminate].
  injection H as <-. cbn [wb_base wb_names wb_params wb_frozen wb_attr wb_supp].
  split; [eapply b_reparam_wf; [exact (wr_behaves _ _ _ _ R)|exact W|exact E]|]. split; [symmetry; exact K|].
  split; [eapply b_reparam_full; [exact (wr_behaves _ _ _ _ R)|exact W|exact KB|exact E]|].
  split. { rewrite !app_length, !map_length, <- KB, map_length. destruct m; reflexivity. }
  split; [reflexivity|]. split; [exists kwb; auto|].
  unfold holds_own. rewrite set_attrs_app. clear GB KB ES. destruct m; cbn [own_names In] in OWN; cbn [wb_attr wb_supp wb_base].
  - destruct (OWN "lower") as [lo ->]; [tauto|]. destruct (OWN "upper") as [up ->]; [tauto|]. cbn [or_default set_attrs].
    split; [|split; cbn; discriminate]. exists lo, up. repeat split.
  - destruct (OWN "lower") as [lo ->]; [tauto|]. destruct (OWN "upper") as [up ->]; [tauto|]. cbn [or_default set_attrs].
    split; [|split; cbn; discriminate]. exists lo, up. repeat split.
  - split; [|exact I]. split; reflexivity.
Qed.

Lemma wfit_sound mean sigma w w' : sound b m wf w -> o_fit obj mean sigma w = (w', Ok tt) ->
  sound b m wf w' /\ wb_names w' = wb_names w /\ List.length (wb_params w') = List.length (wb_names w') /\ wb_frozen w' = true.
Proof.
  intros (W & N & _) H. cbn [o_fit wrap_object] in H. unfold wfit in H.
  destruct (o_fit b mean sigma (wb_base w)) as [d [[]|e]] eqn:E; [|discriminate].
  destruct (b_fit _ _ (wr_behaves _ _ _ _ R) _ _ _ _ W E) as (W1 & _ & N1 & _).
  destruct (wr_fit _ _ _ _ R _ _ _ _ W E) as (vs & P & L). rewrite P in H.
  destruct (wr_names _ _ _ _ R _ W1) as [NE DJ].
  unfold wcall in H.
  assert (FC : filter (fun kv => negb (is_own m (fst kv))) (combine (o_names b d) (map Some vs)) = combine (o_names b d) (map Some vs)).
  { apply (filter_all_own m). intros k Hk Hi. apply (DJ k Hk). eapply map_fst_combine, Hi. }
  rewrite FC in H. clear FC. unfold wparam in H. cbn [wb_base wb_attr wb_names wb_supp wb_frozen] in H.
  assert (LM : List.length (o_names b d) = List.length (map Some vs)) by (rewrite map_length; congruence).
  assert (NN : combine (o_names b d) (map Some vs) <> []).
  { destruct (o_names b d); [congruence|]. destruct vs; [discriminate L|discriminate]. }
  remember (combine (o_names b d) (map Some vs)) as sk eqn:ES.
  assert (NB : forall (A : list (string * option xr)), match sk with [] => A | _ :: _ => sk end = sk) by (intro A; destruct sk; [congruence|reflexivity]).
  rewrite NB in H. clear NB NN.
  assert (SN : map snd sk = map Some vs) by (subst sk; apply snd_combine; exact LM).
  rewrite SN, all_some, ES, values_combine in H.
  destruct (o_reparam b (combine (o_names b d) vs) d) as [d' [[]|e]] eqn:E2; [|discriminate].
  injection H as <-. cbn [wb_base wb_names wb_params wb_frozen wb_attr wb_supp].
  assert (N2 : o_names b d' = o_names b d).
  { eapply b_reparam_full; [exact (wr_behaves _ _ _ _ R)|exact W1| |exact E2]. apply fst_combine. congruence. }
  split; [|split; [rewrite N, N1; reflexivity|split; [|reflexivity]]].
  - unfold sound. cbn [wb_base wb_names wb_attr]. split; [eapply b_reparam_wf; [exact (wr_behaves _ _ _ _ R)|exact W1|exact E2]|].
    split; [rewrite N2; reflexivity|]. rewrite set_attrs_app. destruct m; try exact I; split; cbn; discriminate.
  - rewrite !app_length, !map_length, L. destruct m; reflexivity.
Qed.

Lemma sound_nodup w : sound b m wf w -> NoDup (wb_names w).
Proof.
  intros (W & N & _). rewrite N. destruct (wr_names _ _ _ _ R _ W) as [_ DJ].
  pose proof (b_nodup _ _ (wr_behaves _ _ _ _ R) _ W) as ND. revert ND DJ. generalize (o_names b (wb_base w)). intros l ND DJ.
  induction l as [|x l IH]; cbn.
  - destruct m; repeat constructor; cbn; intuition discriminate.
  - inversion ND as [|? ? NI ND']; subst. constructor.
    + intro H. apply in_app_or in H. destruct H as [H|H]; [contradiction|]. apply (DJ x H). left. reflexivity.
    + apply IH; [exact ND'|]. intros k Hk Hi. apply (DJ k Hk). right. exact Hi.
Qed.

Lemma optimise_wrapped w x : forall visited w1 w',
  sound b m wf w -> wf (wb_base w1) -> wb_names w1 = wb_names w -> o_names b (wb_base w1) = o_names b (wb_base w) ->
  Forall (fun v => List.length v = List.length (free_names (fun k => flat (wb_attr w k)) (wb_names w))) (x :: visited) ->
  optimise obj (List.length (wb_names w)) (get_fixed_params (fun k => flat (wb_attr w k)) (wb_names w)) visited x w1 = (w', Ok tt) ->
  elicited b m w x w'.
Proof.
  destruct (get_fixed_params (fun k => flat (wb_attr w k)) (wb_names w)) as [ni fx] eqn:EG.
  induction visited as [|v vs IH]; intros w1 w' SO W1 N1 NB HL H; cbn [optimise fst snd] in H; inversion HL as [|? ? Hx Hvs]; subst;
    cbn [o_names wrap_object] in H; rewrite N1 in H; pose proof (sound_nodup _ SO) as ND.
  - destruct (C26_fixed_and_free xr (wb_names w) _ ni fx x ND EG Hx) as (kw & Ek & K1 & K2 & K3). rewrite Ek in H.
    assert (KF : map fst kw = (o_names b (wb_base w1) ++ own_names m)%list) by (rewrite K1, NB; apply SO).
    destruct (wcall_full kw w1 w' W1 KF H) as (_ & A2 & _ & _ & A5 & (kwb & B1 & B2 & B3) & A7 & _).
    split; [exact A5|]. split; [rewrite A2; exact K1|]. exists kw, kwb, (wb_base w1). rewrite NB in B1, B2. auto 10.
  - inversion Hvs as [|? ? Hv Hvs']; subst.
    destruct (C26_fixed_and_free xr (wb_names w) _ ni fx v ND EG Hv) as (kw & Ek & K1 & _). rewrite Ek in H.
    destruct (o_reparam obj kw w1) as [w2 [[]|]] eqn:E; cbn [andthen] in H; [|discriminate].
    assert (KF : map fst kw = (o_names b (wb_base w1) ++ own_names m)%list) by (rewrite K1, NB; apply SO).
    destruct (wcall_full kw w1 w2 W1 KF E) as (A1 & A2 & A3 & _).
    apply (IH w2 w'); auto; congruence.
Qed.

Lemma elicit_wrapped mean sigma w w1 w' vis x : sound b m wf w -> o_fit obj mean sigma w = (w1, Ok tt) ->
  Forall (fun v => List.length v = List.length (free_names (fun k => flat (wb_attr w k)) (wb_names w))) (x :: vis) ->
  optimise obj (o_nparams obj w1) (get_fixed_params (o_attr obj w) (o_names obj w)) vis x w1 = (w', Ok tt) -> elicited b m w x w'.
Proof.
  intros SO E HL H. destruct (wfit_sound _ _ _ _ SO E) as (S1 & N1 & L1 & _).
  cbn [o_nparams o_attr o_names wrap_object] in H. rewrite L1, N1 in H.
  eapply optimise_wrapped; eauto.
  - apply S1.
  - destruct S1 as (_ & Q1 & _), SO as (_ & Q2 & _). rewrite N1, Q2 in Q1. apply app_inv_tail in Q1. congruence.
Qed.
End Wrapped.

(* ------------------------------------------------------------ what the elicitation functions leave *)
Definition right_lengths {D} (w : wob D) (search : wob D -> list (list xr) * list xr) : Prop :=
  forall w1, Forall (fun v => List.length v = List.length (free_names (fun k => flat (wb_attr w k)) (wb_names w))) (snd (search w1) :: fst (search w1)).

(** maxent on a modifier that went through: the bounds (psi) given by the user and every other parameter fixed in the
    modifier have the user's values at the end, the free ones those found, the base is configured with them, and the
    support is the part of the base's between the bounds. *)
Theorem C87_maxent : forall D (b : object D) bparams m wf default_mass search w lower upper mass fixed_stat w',
  wrappable b bparams m wf -> sound b m wf w -> right_lengths w search ->
  maxent (wrap_object b bparams m) default_mass search w lower upper mass None fixed_stat = (w', Ok tt) ->
  exists w1, elicited b m w (snd (search w1)) w'.
Proof.
  intros D b bp m wf dm search w lower upper mass fs w' R SO HL H. unfold maxent in H. cbn [valid_distribution o_categorical wrap_object andthen] in H.
  repeat match type of H with (if ?c then _ else _) = _ => destruct c; [discriminate|] end.
  destruct (check_endpoints _ _ _); [|discriminate].
  match type of H with andthen ?p _ = _ => destruct p as [w1 [[]|]] eqn:E; cbn [andthen] in H; [|discriminate] end.
  repeat match type of H with (if ?c then _ else _) = _ => destruct c; [discriminate|] end.
  exists w1. specialize (HL w1). destruct (search w1) as [vis x]. eapply elicit_wrapped; eauto.
Qed.
(** The same for quartile. *)
Theorem C87_quartile : forall D (b : object D) bparams m wf search w q1 q2 q3 w',
  wrappable b bparams m wf -> sound b m wf w -> right_lengths w search ->
  quartile (wrap_object b bparams m) search w q1 q2 q3 None = (w', Ok tt) ->
  exists w1, elicited b m w (snd (search w1)) w'.
Proof.
  intros D b bp m wf search w q1 q2 q3 w' R SO HL H. unfold quartile in H. cbn [valid_distribution o_categorical wrap_object andthen] in H.
  repeat match type of H with (if ?c then _ else _) = _ => destruct c; [discriminate|] end.
  destruct (check_endpoints _ _ _); [|discriminate].
  match type of H with andthen ?p _ = _ => destruct p as [w1 [[]|]] eqn:E; cbn [andthen] in H; [|discriminate] end.
  exists w1. specialize (HL w1). destruct (search w1) as [vis x]. eapply elicit_wrapped; eauto.
Qed.
(** The same for a modifier whose moments or quantiles are matched to another distribution's. *)
Theorem C87_match : forall D (b : object D) bparams m wf search source_frozen target mean std w w',
  wrappable b bparams m wf -> sound b m wf w -> right_lengths w search ->
  match_to (wrap_object b bparams m) search source_frozen target mean std w = (w', Ok tt) ->
  exists w1, elicited b m w (snd (search w1)) w'.
Proof.
  intros D b bp m wf search sf tg mean std w w' R SO HL H. unfold match_to in H. cbn [valid_distribution o_categorical wrap_object] in H.
  destruct sf as [[]|]; try discriminate; (destruct tg; [|discriminate]);
    (match type of H with andthen ?p _ = _ => destruct p as [w1 [[]|]] eqn:E; cbn [andthen] in H; [|discriminate] end);
    exists w1; specialize (HL w1); destruct (search w1) as [vis x]; eapply elicit_wrapped; eauto.
Qed.

(* ------------------------------------------------------------ new modifiers *)
(** A modifier built on a distribution that is not completely specified is open: the distribution is not touched, the
    modifier has its bounds (psi), and all parameters of the distribution count as free, also those that were given. *)
Theorem C87_new_open : forall D (b : object D) bparams m wf d own w r,
  wrappable b bparams m wf -> wf d -> bparams d = None -> wrap_new b bparams m d own [] = (w, r) ->
  r = Ok tt /\ sound b m wf w /\ wb_base w = d /\ wb_frozen w = false /\
  (forall k, In k (o_names b d) -> wb_attr w k = Some None) /\
  match m with
  | Hurd => wb_attr w "psi" = Some (own "psi") /\ wb_supp w = o_supp b d
  | _ => let lo := match own "lower" with Some x => x | None => NInf end in
         let up := match own "upper" with Some x => x | None => PInf end in
         wb_supp w = between (o_supp b d) lo up /\
         (m = Trunc -> wb_attr w "lower" = Some (Some lo) /\ wb_attr w "upper" = Some (Some up)) /\
         (m = Cens -> wb_attr w "lower" = Some (Some (fst (wb_supp w))) /\ wb_attr w "upper" = Some (Some (snd (wb_supp w))))
  end.
Proof.
  intros D b bp m wf d own w r R W P H. destruct (wr_names _ _ _ _ R _ W) as [NE DJ].
  unfold wrap_new, wparam in H. cbn [wb_base wb_attr wb_supp wb_frozen] in H. rewrite P in H.
  assert (AN : all_not_none (map snd (map (fun n : string => (n, @None xr)) (o_names b d))) = false).
  { destruct (o_names b d); [congruence|reflexivity]. }
  rewrite AN in H. injection H as <- <-. split; [reflexivity|]. cbn [wb_base wb_attr wb_supp wb_frozen].
  assert (AT : forall k a, In k (o_names b d) -> set_attrs (map (fun n : string => (n, None)) (o_names b d)) a k = Some None).
  { clear. assert (Q : forall l (a : string -> option (option xr)) k, a k = Some None -> set_attrs (map (fun n : string => (n, None)) l) a k = Some None).
    { induction l as [|x l IH]; intros a k H; [exact H|]. cbn. apply IH. destruct (String.eqb k x); [reflexivity|exact H]. }
    induction (o_names b d) as [|x l IH]; intros k a H; [destruct H|]. cbn. destruct H as [->|H]; [|apply IH, H].
    apply Q. rewrite String.eqb_refl. reflexivity. }
  assert (NO : forall k n, In n (own_names m) -> In k (o_names b d) -> String.eqb k n = false).
  { intros k n Hn Hk. destruct (String.eqb_spec k n) as [->|]; [exfalso; exact (DJ n Hn Hk)|reflexivity]. }
  split; [|split; [reflexivity|split; [reflexivity|split]]].
  - unfold sound. cbn [wb_base wb_names wb_attr]. split; [exact W|]. split; [reflexivity|]. rewrite set_attrs_app. destruct m; try exact I; split; cbn; discriminate.
  - intros k Hk. rewrite set_attrs_app.
    destruct m; cbn [set_attrs];
      rewrite ?(NO k "lower"), ?(NO k "upper"), ?(NO k "psi") by (assumption || (cbn; tauto)); apply AT, Hk.
  - rewrite set_attrs_app. destruct m; cbn [set_attrs].
    + split; [reflexivity|]. split; intro Q; [|discriminate Q]. split; reflexivity.
    + split; [reflexivity|]. split; intro Q; [discriminate Q|]. split; reflexivity.
    + split; reflexivity.
Qed.

(** maxent and quartile refuse an interval that reaches outside of the bounds of a Truncated or Censored distribution,
    even where the wrapped distribution has mass. *)
Theorem C87_outside_bounds : forall D (b : object D) bparams m wf d own w l u lower upper,
  wrappable b bparams m wf -> wf d -> bparams d = None -> m <> Hurd -> wrap_new b bparams m d own [] = (w, Ok tt) ->
  own "lower" = Some (Fin l) -> own "upper" = Some (Fin u) ->
  (fst (o_supp b d) = NInf \/ exists s, fst (o_supp b d) = Fin s) -> (snd (o_supp b d) = PInf \/ exists s, snd (o_supp b d) = Fin s) ->
  lower < l \/ u < upper ->
  (forall default_mass search mass fixed_stat,
     maxent (wrap_object b bparams m) default_mass search w (Fin lower) (Fin upper) mass None fixed_stat = (w, Err ValueError)) /\
  (forall search q2, quartile (wrap_object b bparams m) search w (Fin lower) q2 (Fin upper) None = (w, Err ValueError)).
Proof.
  intros D b bp m wf d own w l u lower upper R W P M H OL OU SL SU X.
  destruct (C87_new_open D b bp m wf d own w (Ok tt) R W P H) as (_ & _ & _ & _ & _ & K).
  assert (S1 : wb_supp w = between (o_supp b d) (Fin l) (Fin u)) by (destruct m; [rewrite OL, OU in K; apply K|rewrite OL, OU in K; apply K|congruence]).
  assert (C : check_endpoints (wb_supp w) (Fin lower) (Fin upper) = Err ValueError).
  { rewrite S1. unfold between, check_endpoints.
    assert (A : exists a, w_max (fst (o_supp b d)) (Fin l) = Fin a /\ l <= a).
    { destruct SL as [-> |(s & ->)]; unfold w_max; cbn; [exists l; split; [reflexivity|lra]|].
      destruct (Rltb_spec s l); eexists; (split; [reflexivity|lra]). }
    assert (B : exists a, w_min (snd (o_supp b d)) (Fin u) = Fin a /\ a <= u).
    { destruct SU as [-> |(s & ->)]; unfold w_min; cbn; [exists u; split; [reflexivity|lra]|].
      destruct (Rltb_spec u s); eexists; (split; [reflexivity|lra]). }
    destruct A as (a & -> & HA), B as (c & -> & HC). cbn [xisfinite xltb andb].
    destruct (Rltb_spec lower a); [reflexivity|]. destruct (Rltb_spec c upper); [reflexivity|]. exfalso. lra. }
  split.
  - intros. unfold maxent, valid_distribution. cbn [o_categorical wrap_object andthen o_frozen o_supp]. rewrite C.
    repeat match goal with |- (if ?c then _ else _) = _ => destruct c; [reflexivity|] end. reflexivity.
  - intros. unfold quartile, valid_distribution. cbn [o_categorical wrap_object andthen o_frozen o_supp]. rewrite C.
    repeat match goal with |- (if ?c then _ else _) = _ => destruct c; [reflexivity|] end. reflexivity.
Qed.

(** A modifier built on a completely specified distribution is itself completely specified: its parameters are those of
    the distribution followed by its own, and maxent and quartile reject it. *)
Theorem C87_new_complete : forall D (b : object D) bparams m wf d vs own w,
  wrappable b bparams m wf -> wf d -> bparams d = Some (map Some vs) -> List.length vs = List.length (o_names b d) ->
  wrap_new b bparams m d own [] = (w, Ok tt) ->
  wb_frozen w = true /\ wb_names w = (o_names b d ++ own_names m)%list /\
  (exists rest, wb_params w = (map Some vs ++ rest)%list) /\ o_reparam b (combine (o_names b d) vs) d = (wb_base w, Ok tt) /\
  (forall default_mass search lower upper mass fixed_stat,
     maxent (wrap_object b bparams m) default_mass search w lower upper mass None fixed_stat = (w, Err ValueError)) /\
  (forall search q1 q2 q3, quartile (wrap_object b bparams m) search w q1 q2 q3 None = (w, Err ValueError)).
Proof.
  intros D b bp m wf d vs own w R W P L H. destruct (wr_names _ _ _ _ R _ W) as [NE DJ].
  unfold wrap_new, wparam in H. cbn [wb_base wb_attr wb_supp wb_frozen] in H. rewrite P in H.
  assert (SN : map snd (combine (o_names b d) (map Some vs)) = map Some vs) by (apply snd_combine; rewrite map_length; congruence).
  rewrite SN, all_some, values_combine in H.
  destruct (o_reparam b (combine (o_names b d) vs) d) as [d' [[]|e]] eqn:E; [|discriminate].
  assert (F : wb_frozen w = true) by (injection H as <-; reflexivity).
  split; [exact F|]. split; [injection H as <-; reflexivity|]. split; [injection H as <-; eexists; reflexivity|].
  split; [injection H as <-; reflexivity|]. split.
  - intros. apply C32_frozen_raises; [reflexivity|exact F].
  - intros. unfold quartile. cbn [valid_distribution o_categorical wrap_object andthen o_frozen]. rewrite F. destruct (negb _); reflexivity.
Qed.

(** fixed_params does not work on a modifier: naming parameters of the base, maxent and quartile always raise ValueError;
    the modifier is frozen although parameters are missing, and bounds not named again are lost. *)
Theorem C87_fixed_params_refuted : forall D (b : object D) bparams m wf w kw d',
  wrappable b bparams m wf -> wf (wb_base w) -> kw <> [] -> (forall k, In k (map fst kw) -> ~ In k (own_names m)) ->
  o_reparam b kw (wb_base w) = (d', Ok tt) ->
  exists w', wb_base w' = d' /\ wb_frozen w' = true /\
    match m with
    | Trunc => wb_attr w' "lower" = Some (Some NInf) /\ wb_attr w' "upper" = Some (Some PInf)
    | Cens => wb_supp w' = between (o_supp b d') NInf PInf
    | Hurd => wb_attr w' "psi" = Some None end /\
    (forall default_mass search lower upper mass fixed_stat,
       maxent (wrap_object b bparams m) default_mass search w lower upper mass (Some kw) fixed_stat = (w', Err ValueError)) /\
    (forall search q1 q2 q3, quartile (wrap_object b bparams m) search w q1 q2 q3 (Some kw) = (w', Err ValueError)).
Proof.
  intros D b bp m wf w kw d' R W NE DJ E.
  assert (X : exists w', o_reparam (wrap_object b bp m) kw w = (w', Ok tt) /\ wb_base w' = d' /\ wb_frozen w' = true /\
    match m with
    | Trunc => wb_attr w' "lower" = Some (Some NInf) /\ wb_attr w' "upper" = Some (Some PInf)
    | Cens => wb_supp w' = between (o_supp b d') NInf PInf
    | Hurd => wb_attr w' "psi" = Some None end).
  { cbn [o_reparam wrap_object]. unfold wcall.
    assert (KN : map fst (map (fun kv : string * xr => (fst kv, Some (snd kv))) kw) = map fst kw) by (rewrite map_map; reflexivity).
    assert (FC : filter (fun kv => negb (is_own m (fst kv))) (map (fun kv : string * xr => (fst kv, Some (snd kv))) kw)
                 = map (fun kv : string * xr => (fst kv, Some (snd kv))) kw).
    { apply (filter_all_own m). intros k Hk Hi. rewrite KN in Hi. exact (DJ k Hi Hk). }
    rewrite FC. clear FC.
    assert (LK : forall k, In k (own_names m) -> flat (lookup (map (fun kv : string * xr => (fst kv, Some (snd kv))) kw) k) = None).
    { intros k Hk. rewrite (lookup_none _ k); [reflexivity|]. rewrite KN. intro Hi. exact (DJ k Hi Hk). }
    unfold wparam.
    remember (map (fun kv : string * xr => (fst kv, Some (snd kv))) kw) as sk eqn:ES.
    assert (NB : forall (A : list (string * option xr)), match sk with [] => A | _ :: _ => sk end = sk)
      by (intro A; destruct sk; [destruct kw; [congruence|discriminate ES]|reflexivity]).
    rewrite NB. clear NB KN.
    assert (AN : all_not_none (map snd sk) = true).
    { subst sk. rewrite map_map. cbn [snd]. rewrite <- (map_map snd Some). apply all_some. }
    rewrite AN. clear AN. assert (VS : values sk = kw) by (subst sk; apply values_some). rewrite VS, E.
    eexists. split; [reflexivity|]. split; [reflexivity|]. split; [reflexivity|].
    cbn [wb_attr wb_supp]. rewrite set_attrs_app. destruct m; cbn [own_names In] in LK;
      rewrite ?(LK "lower"), ?(LK "upper"), ?(LK "psi") by tauto; try split; reflexivity. }
  destruct X as (w' & X1 & X2 & X3 & X4). exists w'. split; [exact X2|]. split; [exact X3|]. split; [exact X4|]. split.
  - intros. unfold maxent, valid_distribution. change (o_categorical (wrap_object b bp m)) with false. cbv iota.
    rewrite X1. cbn [andthen]. change (o_frozen (wrap_object b bp m) w') with (wb_frozen w'). rewrite X3.
    repeat match goal with |- (if ?c then _ else _) = _ => destruct c; [reflexivity|] end. reflexivity.
  - intros. unfold quartile, valid_distribution. change (o_categorical (wrap_object b bp m)) with false. cbv iota.
    rewrite X1. cbn [andthen]. change (o_frozen (wrap_object b bp m) w') with (wb_frozen w'). rewrite X3.
    destruct (negb _); reflexivity.
Qed.

(** After the fit that precedes the optimisation a hurdle without psi has no value of psi to start from: the starting
    point of maxent cannot be computed. *)
Theorem C87_hurdle_without_psi_refuted : forall D (b : object D) bparams wf mean sigma w w1,
  wrappable b bparams Hurd wf -> sound b Hurd wf w -> flat (wb_attr w "psi") = None ->
  (forall k, In k (o_names b (wb_base w)) -> flat (wb_attr w k) = None) ->
  o_fit (wrap_object b bparams Hurd) mean sigma w = (w1, Ok tt) ->
  start_values (wb_params w1) (fst (get_fixed_params (fun k => flat (wb_attr w k)) (wb_names w))) = Err TypeError.
Proof.
  intros D b bp wf mean sigma w w1 R SO PS FR H. pose proof SO as (W & N & _). rewrite N.
  cbn [o_fit wrap_object] in H. unfold wfit in H.
  destruct (o_fit b mean sigma (wb_base w)) as [d [[]|e]] eqn:E; [|discriminate].
  destruct (b_fit _ _ (wr_behaves _ _ _ _ R) _ _ _ _ W E) as (W1 & _ & N1 & _).
  destruct (wr_fit _ _ _ _ R _ _ _ _ W E) as (vs & P & L). rewrite P in H.
  destruct (wr_names _ _ _ _ R _ W1) as [NE DJ]. unfold wcall in H.
  assert (FC : filter (fun kv => negb (is_own Hurd (fst kv))) (combine (o_names b d) (map Some vs)) = combine (o_names b d) (map Some vs)).
  { apply (filter_all_own Hurd). intros k Hk Hi. apply (DJ k Hk). eapply map_fst_combine, Hi. }
  rewrite FC in H. clear FC. unfold wparam in H. cbn [wb_base wb_attr wb_names wb_supp wb_frozen] in H.
  assert (LM : List.length (o_names b d) = List.length (map Some vs)) by (rewrite map_length; congruence).
  assert (NN : combine (o_names b d) (map Some vs) <> []).
  { destruct (o_names b d); [congruence|]. destruct vs; [discriminate L|discriminate]. }
  assert (LK : flat (lookup (combine (o_names b d) (map Some vs)) "psi") = None).
  { rewrite lookup_none; [reflexivity|]. intro Hi. apply (DJ "psi"); [left; reflexivity|]. eapply map_fst_combine, Hi. }
  assert (SN : map snd (combine (o_names b d) (map Some vs)) = map Some vs) by (apply snd_combine; exact LM).
  remember (combine (o_names b d) (map Some vs)) as sk eqn:ES.
  assert (NB : forall (A : list (string * option xr)), match sk with [] => A | _ :: _ => sk end = sk) by (intro A; destruct sk; [congruence|reflexivity]).
  rewrite NB, LK, SN in H. clear NB NN.
  assert (PW : wb_params w1 = (map Some vs ++ [None])%list).
  { rewrite all_some in H. destruct (o_reparam b (values sk) d) as [d' [[]|e]]; [injection H as <-; reflexivity|discriminate]. }
  rewrite PW. rewrite N1 in L. clear -L FR PS. revert FR L. generalize (o_names b (wb_base w)). intros l FR L.
  assert (Q : forall l vs pre, List.length vs = List.length l -> (forall k, In k l -> flat (wb_attr w k) = None) ->
     start_values (map Some (pre ++ vs) ++ [None]) (fst (get_fixed (fun k => flat (wb_attr w k)) (List.length pre) (l ++ ["psi"]))) = Err TypeError).
  { clear -PS. induction l as [|x l IH]; intros vs pre L FR.
    - destruct vs; [|discriminate L]. cbn [app get_fixed]. rewrite PS. cbn [fst start_values]. rewrite app_nil_r.
      unfold index. rewrite nth_error_app2 by (rewrite map_length; lia). rewrite map_length, PeanoNat.Nat.sub_diag. reflexivity.
    - destruct vs as [|v vs]; [discriminate L|]. cbn [app get_fixed]. rewrite (FR x) by (left; reflexivity).
      specialize (IH vs (pre ++ [v])%list). rewrite app_length in IH. cbn [List.length] in IH. rewrite PeanoNat.Nat.add_1_r in IH.
      rewrite <- app_assoc in IH. cbn [app] in IH.
      destruct (get_fixed (fun k => flat (wb_attr w k)) (S (List.length pre)) (l ++ ["psi"])) as [ni fx]. cbn [fst start_values] in *.
      unfold index. rewrite nth_error_app1 by (rewrite map_length, app_length; cbn; lia).
      rewrite nth_error_map, nth_error_app2 by lia. rewrite PeanoNat.Nat.sub_diag. cbn [nth_error option_map bind].
      rewrite IH; [reflexivity|cbn in L; congruence|]. intros k Hk. apply FR. right. exact Hk. }
  exact (Q l vs [] L FR).
Qed.

(* ------------------------------------------------------------ the univariate families *)
(** The numerical moment fits end with a call of _update with values for all parameters. *)
Definition opt_values (opt : family -> dist -> R -> R -> res dist) : Prop :=
  forall f d m s d', opt f d m s = Ok d' -> exists vs, update f d (map Some vs) = Ok d'.
Ltac some_values :=
  first [eexists [_]; reflexivity | eexists [_; _]; reflexivity | eexists [_; _; _]; reflexivity
        | eexists [_; _; _; _]; reflexivity].
Lemma fit_is_values eg gam opt f d m s d' : opt_values opt -> fit_moments eg gam opt f d m s = Ok d' ->
  (exists vs, update f d (map Some vs) = Ok d') \/ f = BetaScaled \/ f = TruncatedNormal.
Proof.
  intros HO H. destruct f; try (right; tauto); left; cbn [fit_moments] in H; try (eapply HO; exact H);
    unfold al_fit, beta_fit, betascaled_fit, discreteuniform_fit, exponential_fit, gamma_fit, geometric_fit, gumbel_fit, halfnormal_fit,
      halfstudentt_fit, inversegamma_fit, laplace_fit, logistic_fit, logitnormal_fit, lognormal_fit, moyal_fit, pareto_fit,
      studentt_fit, triangular_fit, uniform_fit, wald_fit, weibull_fit in H; cbv zeta in H; peel H; injection H as <-; try some_values.
Qed.
Lemma all_given (l : list (option xr)) : all_not_none l = true -> exists vs, l = map Some vs.
Proof.
  unfold all_not_none. induction l as [|[x|] l IH]; intro H; [exists []; reflexivity| |discriminate H].
  destruct (IH H) as [vs ->]. exists (x :: vs). reflexivity.
Qed.
Lemma update_values f d vs d' : In (names d) (sets f) -> f <> BetaScaled -> f <> TruncatedNormal ->
  update f d (map Some vs) = Ok d' -> exists ws, params d' = map Some ws.
Proof.
  intros HP N1 N2 HU. apply all_given.
  destruct d as [nm ps at_ sp fr]. cbn [names] in *.
  destruct f; try congruence; clear N1 N2; cbn [sets In] in HP; repeat (destruct HP as [<-|HP]); try contradiction;
    destruct vs as [|v1 [|v2 [|v3 [|v4 [|v5 vs]]]]]; cbn [update map] in HU; try discriminate HU;
    unfold betabinomial_update, binomial_update, zib_update, hypergeometric_update in HU; cbnH HU; crunch HU; cbnH HU;
    try discriminate; inversion HU; reflexivity.
Qed.

Definition disjoint_names (m : modifier) (f : family) : bool :=
  forallb (fun P => forallb (fun k => negb (existsb (String.eqb k) (own_names m))) P) (sets f).
(** Every univariate family but BetaScaled and TruncatedNormal, none of whose parameters is called like one of the
    modifier's, can be modified. *)
Theorem C87_families : forall ptd euler_gamma gamma opt m f,
  opt_values opt -> disjoint_names m f = true -> f <> BetaScaled -> f <> TruncatedNormal ->
  wrappable (family_object ptd euler_gamma gamma opt f) family_params m (fun d => In (names d) (sets f)).
Proof.
  intros ptd eg gam opt m f HO DN N1 N2. constructor.
  - apply C32_families_behave. intros f0 d0 m0 s0 d0' H. destruct (HO _ _ _ _ _ H) as [vs U]. eauto.
  - intros d W. cbn [o_names family_object]. split.
    + intro E. rewrite E in W. clear -W. destruct f; cbn [sets In] in W; intuition discriminate.
    + intros k Hk Hi. unfold disjoint_names in DN. rewrite forallb_forall in DN. specialize (DN _ W). rewrite forallb_forall in DN.
      specialize (DN _ Hi). replace (existsb (String.eqb k) (own_names m)) with true in DN; [discriminate|].
      symmetry. apply existsb_exists. exists k. split; [exact Hk|apply String.eqb_refl].
  - intros mean sigma d d' W H. cbn [o_fit family_object] in H. destruct mean as [mean| | |], sigma as [sigma| | |]; try discriminate.
    destruct (fit_moments eg gam opt f d mean sigma) as [d2|] eqn:E; [|discriminate]. injection H as <-.
    destruct (fit_is_values _ _ _ _ _ _ _ _ HO E) as [[vs U]|[Q|Q]]; try congruence.
    destruct (update_values f d vs d2 W N1 N2 U) as [ws P]. destruct (C26_params_cover_names _ _ _ _ W U) as [L N].
    exists ws. cbn [o_names family_object]. unfold family_params. rewrite P in L |- *. rewrite map_length in L.
    split; [|exact L]. destruct ws; [|reflexivity]. exfalso. rewrite N in L. clear -W L.
    destruct (names d) eqn:E; [|discriminate]. destruct f; cbn [sets In] in W; intuition discriminate.
Qed.


Lemma free_app {A} (g : string -> option A) l r : free_names g (l ++ r) = (free_names g l ++ free_names g r)%list.
Proof. unfold free_names. apply filter_app. Qed.
Lemma free_all {A} (g : string -> option A) l : (forall k, In k l -> g k = None) -> free_names g l = l.
Proof.
  unfold free_names. induction l as [|x l IH]; intro H; [reflexivity|]. cbn. rewrite (H x) by (left; reflexivity). f_equal.
  apply IH. intros k Hk. apply H. right. exact Hk.
Qed.
Lemma Forall2_in_left {A B} (P Q : A -> B -> Prop) l r : (forall x y, In x l -> P x y -> Q x y) -> Forall2 P l r -> Forall2 Q l r.
Proof.
  intros H F. induction F; constructor; [apply H; [left; reflexivity|assumption]|]. apply IHF. intros a c Ha. apply H. right. exact Ha.
Qed.
(** The parameters given to the distribution before it was modified are not held fixed: after maxent on Truncated(d, lo,
    up) or Censored(d, lo, up), where d is not completely specified, every parameter of d has a value found by the
    optimiser, also those the user had given to d. *)
Theorem C87_inner_fixed_refuted : forall D (b : object D) bparams m wf d own lo up w default_mass search lower upper mass fixed_stat w',
  wrappable b bparams m wf -> wf d -> bparams d = None -> m <> Hurd -> own "lower" = Some lo -> own "upper" = Some up ->
  wrap_new b bparams m d own [] = (w, Ok tt) -> right_lengths w search ->
  maxent (wrap_object b bparams m) default_mass search w lower upper mass None fixed_stat = (w', Ok tt) ->
  exists w1 kw dl, o_reparam b kw dl = (wb_base w', Ok tt) /\ map fst kw = o_names b d /\
    Forall2 (fun k y => dict_get kw k = Some y) (o_names b d) (snd (search w1)).
Proof.
  intros D b bp m wf d own lo up w dm search lower upper mass fs w' R W P NH LO UP HN HL H.
  destruct (C87_new_open _ _ _ _ _ _ _ _ _ R W P HN) as (_ & SO & HB & _ & HA & HM).
  destruct (C87_maxent _ _ _ _ _ _ _ _ _ _ _ _ _ R SO HL H) as (w1 & _ & _ & kw & kwb & dl & K1 & K2 & K3 & K4 & K5 & K6 & _).
  rewrite HB in *. exists w1, kwb, dl. split; [exact K6|]. split; [exact K4|].
  assert (FN : free_names (fun k => flat (wb_attr w k)) (wb_names w) = o_names b d).
  { destruct SO as (_ & N & NN). rewrite N, HB, free_app, free_all.
    - assert (Q : free_names (fun k => flat (wb_attr w k)) (own_names m) = []).
      { destruct m; [| |congruence]; destruct NN as [A B]; unfold free_names; cbn [own_names filter];
          destruct (flat (wb_attr w "lower")), (flat (wb_attr w "upper")); try congruence; reflexivity. }
      rewrite Q. apply app_nil_r.
    - intros k Hk. rewrite (HA k Hk). reflexivity. }
  rewrite FN in K3. eapply Forall2_in_left; [|exact K3]. intros k y Hk E. rewrite K5 by exact Hk. exact E.
Qed.
(** Truncated(Normal(mu=2), 0, 10) and maxent on [1, 9]: the bounds are kept, mu is not 2 any more. *)
Definition half_normal0 : dist := match construct (fun _ _ => (NaN, NaN)) Normal (dict_get [("mu", Fin 2)]) with Ok d => d | Err _ => fresh (NInf, PInf) end.
Definition trunc0 : wob dist := fst (wrap_new demo_object family_params Trunc half_normal0 (dict_get [("lower", Fin 0); ("upper", Fin 10)]) []).
Example C87_applies : exists w',
  attr half_normal0 "mu" = Some (Fin 2) /\ In (names half_normal0) (sets Normal) /\ family_params half_normal0 = None /\
  snd (wrap_new demo_object family_params Trunc half_normal0 (dict_get [("lower", Fin 0); ("upper", Fin 10)]) []) = Ok tt /\
  sound demo_object Trunc (fun d => In (names d) (sets Normal)) trunc0 /\
  right_lengths trunc0 (fun _ => ([], [Fin 5; Fin 3])) /\
  maxent (wrap_object demo_object family_params Trunc) (Fin 0.94) (fun _ => ([], [Fin 5; Fin 3])) trunc0 (Fin 1) (Fin 9) (Some (Fin 0.9)) None None = (w', Ok tt) /\
  attr (wb_base w') "mu" = Some (Fin 5) /\ wb_params w' = [Some (Fin 5); Some (Fin 3); Some (Fin 0); Some (Fin 10)] /\ wb_supp w' = (Fin 0, Fin 10).
Proof.
  assert (A : ~ bad_maxent (wrap_object demo_object family_params Trunc) trunc0 1 9 0.9 None).
  { intros [(s & v & H & _)|[H|[H|[H|[(a & H & H2)|[(a & H & H2)|[H H2]]]]]]]; try discriminate; try lra; cbn in H; injection H as H; lra. }
  erewrite C32_accepts; [|reflexivity|reflexivity|exact A|reflexivity|discriminate|reflexivity].
  eexists. split; [reflexivity|]. split; [cbn; tauto|]. split; [reflexivity|]. split; [reflexivity|].
  split. { split; [cbn; tauto|]. split; [reflexivity|]. split; discriminate. }
  split. { intro w1. repeat constructor. }
  split; [cbn -[to_precision]; reflexivity|]. repeat split.
Qed.
Example C87_families_applies : opt_values (fun _ _ _ _ => Err RuntimeError) /\ disjoint_names Trunc Normal = true /\ disjoint_names Cens Gamma = true /\
  disjoint_names Hurd Gamma = true /\ disjoint_names Trunc Uniform = false.
Proof. split; [intros f d m s d' H; discriminate H|]. repeat split. Qed.

(** Keyword arguments given to the modifier for another parameter set of the base are reported under the wrong names:
    Truncated(Gamma(), 1, 9, mu=2, sigma=1) has the parameter names alpha, beta, lower, upper with the values 2, 1, 1, 9. *)
Theorem C87_keyword_names_refuted : exists w,
  wrap_new (family_object (fun _ _ => (NaN, NaN)) 0 (fun _ => PInf) (fun _ _ _ _ => Err RuntimeError) Gamma) family_params Trunc
    (match construct (fun _ _ => (NaN, NaN)) Gamma (fun _ => None) with Ok d => d | Err _ => fresh (Fin 0, PInf) end)
    (dict_get [("lower", Fin 1); ("upper", Fin 9)]) [("mu", Some (Fin 2)); ("sigma", Some (Fin 1))] = (w, Ok tt) /\
  wb_names w = ["alpha"; "beta"; "lower"; "upper"] /\ wb_params w = [Some (Fin 2); Some (Fin 1); Some (Fin 1); Some (Fin 9)] /\
  names (wb_base w) = ["mu"; "sigma"] /\ attr (wb_base w) "alpha" = Some (Fin 4).
Proof.
  assert (E : gamma_from_mu_sigma (Fin 2) (Fin 1) = Ok (Fin 4, Fin 2)).
  { unfold gamma_from_mu_sigma, pydiv. cbn. rewrite !Reqb_false by lra. cbn. do 2 f_equal; f_equal; lra. }
  unfold wrap_new, wparam. cbn -[gamma_from_mu_sigma gamma_update]. rewrite E.
  eexists. split; [reflexivity|]. split; [reflexivity|]. split; [reflexivity|]. split; reflexivity.
Qed.

(* ------------------------------------------------------------ mixtures *)
Lemma fit_all_ok {D} (b : object D) mean sigma : forall ds ds' r, fit_all b mean sigma ds = (ds', r) -> r = Ok tt ->
  Forall2 (fun d d' => o_fit b mean sigma d = (d', Ok tt)) ds ds'.
Proof.
  induction ds as [|d ds IH]; intros ds' r H HR; cbn in H; [injection H as <- _; constructor|].
  destruct (o_fit b mean sigma d) as [d' [[]|e]] eqn:E; [|injection H as _ <-; discriminate].
  destruct (fit_all b mean sigma ds) as [r' e] eqn:E2. injection H as <- <-. constructor; [exact E|]. apply (IH r' e eq_refl HR).
Qed.
Lemma fit_all_length {D} (b : object D) mean sigma : forall ds ds' r, fit_all b mean sigma ds = (ds', r) -> List.length ds' = List.length ds.
Proof.
  induction ds as [|d ds IH]; intros ds' r H; cbn in H; [injection H as <- _; reflexivity|].
  destruct (o_fit b mean sigma d) as [d' [[]|e]] eqn:E; [|injection H as <- _; reflexivity].
  destruct (fit_all b mean sigma ds) as [r' e] eqn:E2. injection H as <- _. cbn. rewrite (IH r' e eq_refl). reflexivity.
Qed.
(** Fitting the moments of a mixture fits every component to them and gives all the same weight; the weights add up to
    one. *)
Theorem C87_mixture_fit : forall D (b : object D) mean sigma w w',
  mix_fit b mean sigma w = (w', Ok tt) ->
  mo_frozen w' = true /\ Forall2 (fun d d' => o_fit b mean sigma d = (d', Ok tt)) (mo_dists w) (mo_dists w') /\
  exists ws, mo_weights w' = Some (map Fin ws) /\ List.length ws = List.length (mo_dists w) /\
    (forall x y, In x ws -> In y ws -> x = y) /\ (mo_dists w <> [] -> Rsum ws = 1).
Proof.
  intros D b mean sigma w w' H. unfold mix_fit in H. destruct (fit_all b mean sigma (mo_dists w)) as [ds r] eqn:E.
  destruct r as [[]|]; [|discriminate]. injection H as <-. cbn [mo_frozen mo_dists mo_weights]. split; [reflexivity|].
  split; [eapply fit_all_ok; [exact E|reflexivity]|]. pose proof (fit_all_length _ _ _ _ _ _ E) as L. rewrite L.
  set (n := List.length (mo_dists w)). exists (repeat (1 / INR n) n). split; [|split; [apply repeat_length|split]].
  - f_equal. generalize (1 / INR n). clear. intro x. induction n; [reflexivity|]. cbn. rewrite <- IHn. reflexivity.
  - intros x y Hx Hy. apply repeat_spec in Hx, Hy. congruence.
  - intro NE. assert (N0 : INR n <> 0). { apply not_0_INR. subst n. destruct (mo_dists w); [congruence|discriminate]. }
    assert (Q : forall k x, Rsum (repeat x k) = INR k * x).
    { induction k; intro x; [cbn [repeat]; rewrite Rsum_nil; cbn; lra|]. rewrite S_INR. cbn [repeat]. change (x + Rsum (repeat x k) = (INR k + 1) * x). rewrite IHk. lra. }
    rewrite Q. field. exact N0.
Qed.
(** The parameters and the support a fitted mixture reports are those from before the fit, and so are the weights among
    the parameters: a mixture of open components is then complete (frozen) with parameters None. *)
Theorem C87_mixture_stale_refuted : forall D (b : object D) mean sigma w w',
  mix_fit b mean sigma w = (w', Ok tt) ->
  mo_frozen w' = true /\ mo_params w' = mo_params w /\ mo_given w' = mo_given w /\ mo_supp w' = mo_supp w.
Proof.
  intros D b mean sigma w w' H. unfold mix_fit in H. destruct (fit_all b mean sigma (mo_dists w)) as [ds r].
  destruct r as [[]|]; [|discriminate]. injection H as <-. repeat split.
Qed.
Example C87_mixture_applies : exists w w',
  mix_param demo_object family_params [demo_normal; half_normal0] (Some [1; 3]) false = Ok w /\
  mix_fit demo_object (Fin 1) (Fin 2) w = (w', Ok tt) /\ mo_frozen w = false /\ mo_params w' = [None; None; None; None] /\
  map params (mo_dists w') = [[Some (Fin 1); Some (Fin 2)]; [Some (Fin 1); Some (Fin 2)]].
Proof.
  eexists. eexists. split; [cbn; reflexivity|]. split; [cbn -[to_precision]; reflexivity|]. repeat split.
Qed.

Lemma w_min_le a b x : a <> NaN -> b <> NaN -> xleb (w_min a b) x = true <-> xleb a x = true \/ xleb b x = true.
Proof.
  intros A B. unfold w_min. destruct a as [a| | |], b as [b| | |], x as [x| | |]; cbn; try congruence; try tauto;
    try (destruct (Rltb_spec b a)); cbn -[xleb];
    intuition (try discriminate; try reflexivity; try (left; apply xleb_le; match goal with H : xleb _ _ = true |- _ => apply xleb_le in H end; lra); try (apply xleb_le; match goal with H : xleb _ _ = true |- _ => apply xleb_le in H end; lra)).
Qed.
Lemma w_max_ge a b x : a <> NaN -> b <> NaN -> xleb x (w_max a b) = true <-> xleb x a = true \/ xleb x b = true.
Proof.
  intros A B. unfold w_max. destruct a as [a| | |], b as [b| | |], x as [x| | |]; cbn; try congruence; try tauto;
    try (destruct (Rltb_spec a b)); cbn -[xleb];
    intuition (try discriminate; try reflexivity; try (apply xleb_le; match goal with H : xleb _ _ = true |- _ => apply xleb_le in H end; lra)).
Qed.
Lemma w_min_num a b : a <> NaN -> b <> NaN -> w_min a b <> NaN.
Proof. unfold w_min. destruct a, b; cbn; try congruence. intros _ _. destruct (Rltb r0 r); discriminate. Qed.
Lemma w_max_num a b : a <> NaN -> b <> NaN -> w_max a b <> NaN.
Proof. unfold w_max. destruct a, b; cbn; try congruence. intros _ _. destruct (Rltb r r0); discriminate. Qed.
Lemma fold_min l : forall a x, a <> NaN -> (forall y, In y l -> y <> NaN) ->
  xleb (fold_left w_min l a) x = true <-> xleb a x = true \/ exists y, In y l /\ xleb y x = true.
Proof.
  induction l as [|c l IH]; intros a x A N; cbn [fold_left].
  - split; [tauto|]. intros [H|(y & [] & _)]. exact H.
  - assert (C : c <> NaN) by (apply N; left; reflexivity).
    rewrite IH by (try apply w_min_num; auto; intros y Hy; apply N; right; exact Hy). rewrite w_min_le by assumption.
    cbn [In]. split; [intros [[H|H]|(y & H & E)]|intros [H|(y & [<-|H] & E)]]; eauto 6.
Qed.
Lemma fold_max l : forall a x, a <> NaN -> (forall y, In y l -> y <> NaN) ->
  xleb x (fold_left w_max l a) = true <-> xleb x a = true \/ exists y, In y l /\ xleb x y = true.
Proof.
  induction l as [|c l IH]; intros a x A N; cbn [fold_left].
  - split; [tauto|]. intros [H|(y & [] & _)]. exact H.
  - assert (C : c <> NaN) by (apply N; left; reflexivity).
    rewrite IH by (try apply w_max_num; auto; intros y Hy; apply N; right; exact Hy). rewrite w_max_ge by assumption.
    cbn [In]. split; [intros [[H|H]|(y & H & E)]|intros [H|(y & [<-|H] & E)]]; eauto 6.
Qed.
(** A mixture holds the parameters of its components in order, then the weights. It is complete exactly when all of them
    are given, and its support is the smallest interval with those of the components. *)
Theorem C87_mixture_new : forall D (b : object D) bparams dists weights w,
  mix_param b bparams dists weights false = Ok w ->
  dists <> [] /\ mo_dists w = dists /\ mo_names w = (List.concat (map (o_names b) dists) ++ ["weights"])%list /\ mo_given w = weights /\
  (mo_frozen w = true <-> weights <> None /\ forall d, In d dists ->
     match bparams d with Some ps => ~ In None ps | None => o_names b d = [] end) /\
  ((forall d, In d dists -> fst (o_supp b d) <> NaN /\ snd (o_supp b d) <> NaN) ->
   forall x, (xleb (fst (mo_supp w)) x = true <-> exists d, In d dists /\ xleb (fst (o_supp b d)) x = true) /\
             (xleb x (snd (mo_supp w)) = true <-> exists d, In d dists /\ xleb x (snd (o_supp b d)) = true)).
Proof.
  intros D b bp dists weights w H. unfold mix_param in H. destruct dists as [|d0 ds]; [discriminate H|].
  cbn [map mins maxs bind] in H. injection H as <-. cbn [mo_dists mo_names mo_given mo_frozen mo_supp fst snd].
  split; [discriminate|]. split; [reflexivity|]. split; [reflexivity|]. split; [reflexivity|]. split.
  - change (bp d0 :: map bp ds)%list with (map bp (d0 :: ds)).
    match goal with |- context [all_not_none ?l] => change l with
      (List.concat (map (fun d => match bp d with Some ps => ps | None => map (fun _ => None) (o_names b d) end) (d0 :: ds))) end.
    generalize (d0 :: ds)%list. intro l. cbn [orb].
    assert (Q : all_not_none (List.concat (map (fun d => match bp d with Some ps => ps | None => map (fun _ => None) (o_names b d) end) l)) = true <->
                forall d, In d l -> match bp d with Some ps => ~ In None ps | None => o_names b d = [] end).
    { unfold all_not_none. induction l as [|d l IH]; [cbn; split; [intros _ d []|reflexivity]|].
      cbn [map List.concat]. rewrite forallb_app, andb_true_iff, IH.
      assert (Q : forallb given (match bp d with Some ps => ps | None => map (fun _ => None) (o_names b d) end) = true <->
                  match bp d with Some ps => ~ In None ps | None => o_names b d = [] end).
      { destruct (bp d) as [ps|].
        - rewrite forallb_forall. split.
          + intros A I. specialize (A _ I). discriminate A.
          + intros A [x|] I; [reflexivity|contradiction].
        - destruct (o_names b d); cbn; split; congruence. }
      rewrite Q. cbn [In]. split.
      - intros [A B] d1 [<-|I]; [exact A|exact (B d1 I)].
      - intro A. split; [apply A; left; reflexivity|intros d1 I; apply A; right; exact I]. }
    rewrite andb_true_iff, Q. destruct weights; split; intuition congruence.
  - intros NN x. split.
    + rewrite fold_min.
      * split; [intros [H|(y & I & H)]|intros (d & [<-|I] & H)].
        -- exists d0. split; [left; reflexivity|exact H].
        -- apply in_map_iff in I. destruct I as (d & <- & I). exists d. split; [right; exact I|exact H].
        -- left. exact H.
        -- right. exists (fst (o_supp b d)). split; [apply (in_map (fun d => fst (o_supp b d))); exact I|exact H].
      * apply NN. left. reflexivity.
      * intros y I. apply in_map_iff in I. destruct I as (d & <- & I). apply NN. right. exact I.
    + rewrite fold_max.
      * split; [intros [H|(y & I & H)]|intros (d & [<-|I] & H)].
        -- exists d0. split; [left; reflexivity|exact H].
        -- apply in_map_iff in I. destruct I as (d & <- & I). exists d. split; [right; exact I|exact H].
        -- left. exact H.
        -- right. exists (snd (o_supp b d)). split; [apply (in_map (fun d => snd (o_supp b d))); exact I|exact H].
      * apply NN. left. reflexivity.
      * intros y I. apply in_map_iff in I. destruct I as (d & <- & I). apply NN. right. exact I.
Qed.

(** The parameters a new mixture reports are those of its components in order. Its weights are the ones given; in a
    complete mixture each is divided by their sum, so that they add up to 1. *)
Theorem C87_mixture_values : forall D (b : object D) bparams dists weights w,
  mix_param b bparams dists weights false = Ok w ->
  mo_params w = flat_map (fun d => match bparams d with Some ps => ps | None => map (fun _ => None) (o_names b d) end) dists /\
  (weights = None -> mo_weights w = None) /\
  (forall ws, weights = Some ws -> mo_frozen w = false -> mo_weights w = Some (map Fin ws)) /\
  (forall ws, weights = Some ws -> mo_frozen w = true -> RLists.Rsum ws <> 0 ->
     exists vs, mo_weights w = Some (map Fin vs) /\ vs = map (fun x => x / RLists.Rsum ws) ws /\ RLists.Rsum vs = 1).
Proof.
  intros D b bp dists weights w H. unfold mix_param in H. destruct dists as [|d0 ds]; [discriminate H|].
  cbn [map mins maxs bind] in H. injection H as <-. cbn [mo_params mo_weights mo_frozen].
  split; [rewrite flat_map_concat_map; reflexivity|]. split; [intros ->; reflexivity|]. split.
  - intros ws -> F. cbn [orb] in F. rewrite F. reflexivity.
  - intros ws -> F S0. cbn [orb] in F. rewrite F. exists (map (fun x => x / RLists.Rsum ws) ws). split; [|split; [reflexivity|]].
    + f_equal. rewrite map_map. apply map_ext. intro x. unfold xdiv. destruct (Reqb_spec (RLists.Rsum ws) 0); [contradiction|reflexivity].
    + assert (Q : forall c l, RLists.Rsum (map (fun x => x / c) l) = RLists.Rsum l / c).
      { intros c l. unfold RLists.Rsum, Rdiv. induction l as [|x l IH]; cbn; [ring|rewrite IH; ring]. }
      rewrite Q. field. exact S0.
Qed.

Definition of_families {D} (b : object D) (w : mob D) : Prop :=
  exists n r f P, mo_names w = n :: r /\ In P (sets f) /\ In n P.
Lemma family_names_no_members f P n : In P (sets f) -> In n P -> existsb (String.eqb n) mixture_members = false.
Proof.
  intros HP HN. destruct f; cbn [sets In] in HP; repeat (destruct HP as [<-|HP]); try contradiction;
    cbn [In] in HN; repeat (destruct HN as [<-|HN]); try contradiction; reflexivity.
Qed.
(** No elicitation function works on a mixture of univariate families: the parameters of the components are not
    attributes of the mixture. Whatever the arguments, the mixture is left as it was and an exception is raised. *)
Theorem C87_mixture_elicit_refuted : forall D (b : object D) (A : Type) (v : string -> option A) rest w,
  of_families b w ->
  (forall default_mass lower upper mass fixed_stat, exists e, mix_maxent v rest default_mass w lower upper mass fixed_stat = (w, Err e)) /\
  (forall q1 q2 q3, exists e, mix_quartile v rest w q1 q2 q3 = (w, Err e)) /\
  mix_match v rest w = (w, Err AttributeError).
Proof.
  intros D b A v rest w (n & r & f & P & HN & HP & HI).
  assert (E : mix_fixed v 0 (mo_names w) = Err AttributeError).
  { rewrite HN. cbn [mix_fixed]. rewrite (family_names_no_members f P n HP HI). reflexivity. }
  split; [|split].
  - intros. unfold mix_maxent. rewrite E.
    repeat match goal with |- exists e, (if ?c then _ else _) = _ => destruct c; [eexists; reflexivity|] end.
    destruct (check_endpoints _ _ _); eexists; reflexivity.
  - intros. unfold mix_quartile. rewrite E.
    repeat match goal with |- exists e, (if ?c then _ else _) = _ => destruct c; [eexists; reflexivity|] end.
    destruct (check_endpoints _ _ _); eexists; reflexivity.
  - unfold mix_match. rewrite E. reflexivity.
Qed.
Example C87_mixture_elicit_applies : exists w, mix_param demo_object family_params [demo_normal; half_normal0] (Some [1; 3]) false = Ok w /\
  of_families demo_object w.
Proof. eexists. split; [cbn; reflexivity|]. exists "mu", ["sigma"; "mu"; "sigma"; "weights"], Normal, ["mu"; "sigma"]. cbn. tauto. Qed.

(* ------------------------------------------------------------ mle *)
(** mle never fits a modifier or a mixture: none of the classes has the method. A sample outside the support gets an
    infinite loss, any other raises AttributeError. *)
Theorem C87_mle_refuted : forall W members fit supp x_min x_max (w : W),
  members = base_members \/ members = mixture_members ->
  modifier_fit_one members fit supp x_min x_max w =
    if check_endpoints_silent supp (Fin x_min) (Fin x_max) then Err AttributeError else Ok (w, PInf).
Proof. intros W members fit supp x y w [->| ->]; reflexivity. Qed.

(** A mode can be asked for wherever a mean can: the mode of a modifier is found numerically. *)
Theorem C87_fixed_mode : forall D (b : object D) bparams m default_mass search w lower upper mass fixed_params v v',
  maxent (wrap_object b bparams m) default_mass search w lower upper mass fixed_params (Some ("mode", v)) =
  maxent (wrap_object b bparams m) default_mass search w lower upper mass fixed_params (Some ("mean", v')).
Proof. reflexivity. Qed.

Print Assumptions C87_maxent.
Print Assumptions C87_quartile.
Print Assumptions C87_match.
Print Assumptions C87_new_open.
Print Assumptions C87_new_complete.
Print Assumptions C87_fixed_params_refuted.
Print Assumptions C87_hurdle_without_psi_refuted.
Print Assumptions C87_families.
Print Assumptions C87_inner_fixed_refuted.
Print Assumptions C87_keyword_names_refuted.
Print Assumptions C87_mixture_fit.
Print Assumptions C87_mixture_stale_refuted.
Print Assumptions C87_mixture_new.
Print Assumptions C87_mixture_values.
Print Assumptions C87_outside_bounds.
Print Assumptions C87_mixture_elicit_refuted.
Print Assumptions C87_mle_refuted.
Print Assumptions C87_fixed_mode.
