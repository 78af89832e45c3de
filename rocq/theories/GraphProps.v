(** Property theorems for reading a PyMC model and writing the new one: C78. *)
From Coq Require Import List Bool Ascii String Arith Lia.
From Verif Require Import Base TextModel TextProps PplModel PplProps GraphModel.
Import ListNotations.

(* ---------------- specification ---------------- *)
(** A node of the graph is computed from the variable [j]: it is that variable, or one of its inputs is computed from it. *)
Inductive computed_from : node -> nat -> Prop :=
| itself : forall j inputs, computed_from (Var j inputs) j
| through : forall i inputs n j, In n inputs -> computed_from n j -> computed_from (Var i inputs) j.
(** A parameter of the distribution of [v] (all inputs but the generator and the size) is computed from [w]. *)
Definition depends {A} (v w : rv A) : Prop := exists p, In p (skipn 2 (rv_inputs v)) /\ computed_from p (rv_id w).
Definition independent {A} (m : pymc_model A) (v : rv A) : Prop := forall w, In w (free_RVs m) -> ~ depends v w.

(** The names are as PyMC makes them: the value of a variable without a transformation has the name of the variable, and
    that of a transformed one has a name that is recognised as such and from which the name of the variable can be found. *)
Definition named_by_pymc {A} (is_transformed : text -> bool) (untransformed : text -> text) (v : rv A) : Prop :=
  match rv_backward v with
  | None => rv_value v = rv_name v /\ is_transformed (rv_value v) = false
  | Some _ => is_transformed (rv_value v) = true /\ untransformed (rv_value v) = rv_name v
  end.
Record well_made {A} (is_transformed : text -> bool) (untransformed : text -> text) (m : pymc_model A) : Prop := {
  w_named : Forall (named_by_pymc is_transformed untransformed) (free_RVs m);
  w_ids : NoDup (map rv_id (free_RVs m));
  w_names : NoDup (map rv_name (free_RVs m));
  w_observed : observed m <> [] }.

(* ---------------- proofs ---------------- *)
Fixpoint node_ind' (P : node -> Prop) (HC : P Constant) (HV : forall i l, Forall P l -> P (Var i l)) (n : node) : P n :=
  match n with
  | Constant => HC
  | Var i l => HV i l ((fix go l := match l return Forall P l with [] => Forall_nil P | x :: r => Forall_cons x (node_ind' P HC HV x) (go r) end) l)
  end.
Lemma ancestors_spec n j : In j (ancestors n) <-> computed_from n j.
Proof.
  revert j. induction n as [|i l IH] using node_ind'; intro j; cbn [ancestors].
  - split; [intros []|inversion 1].
  - split.
    + intros [->|H]; [apply itself|]. apply in_flat_map in H. destruct H as (x & I & H). rewrite Forall_forall in IH. apply (through i l x j I), IH; assumption.
    + inversion 1; subst; [left; reflexivity|]. right. apply in_flat_map. rewrite Forall_forall in IH. exists n. split; [assumption|]. apply IH; assumption.
Qed.
Lemma mem_spec i l : mem i l = true <-> In i l.
Proof. unfold mem. rewrite existsb_exists. split; [intros (x & I & E); apply Nat.eqb_eq in E; subst; exact I|intro I; exists i; split; [exact I|apply Nat.eqb_refl]]. Qed.
Lemma mem_false i l : mem i l = false <-> ~ In i l.
Proof. rewrite <- mem_spec. destruct (mem i l); split; congruence. Qed.
Lemma NoDup_snoc {X} (l : list X) x : NoDup l -> ~ In x l -> NoDup (l ++ [x]).
Proof.
  intros N H. induction N as [|y l Hy N IH]; cbn; [repeat constructor; intros []|]. constructor.
  - rewrite in_app_iff. intros [I|[->|[]]]; [contradiction|apply H; left; reflexivity].
  - apply IH. intro I. apply H. right. exact I.
Qed.
Section P.
Context {A : Type}.
Implicit Types (free : list (rv A)) (m : pymc_model A).
Lemma add_free_spec anc free : forall parents, NoDup parents -> NoDup (add_free anc free parents) /\
  forall i, In i (add_free anc free parents) <-> In i parents \/ (In i anc /\ In i (map rv_id free)).
Proof.
  induction free as [|v free IH]; intros parents N; cbn [add_free map].
  - split; [exact N|]. intro i. cbn. tauto.
  - destruct (mem (rv_id v) anc) eqn:E1; cbn [andb].
    + apply mem_spec in E1. destruct (mem (rv_id v) parents) eqn:E2; cbn [negb].
      * apply mem_spec in E2. destruct (IH parents N) as [N' H]. split; [exact N'|]. intro i. rewrite H. cbn. intuition (subst; auto).
      * apply mem_false in E2. destruct (IH _ (NoDup_snoc _ _ N E2)) as [N' H]. split; [exact N'|]. intro i. rewrite H, in_app_iff. cbn. intuition (subst; auto).
    + apply mem_false in E1. destruct (IH parents N) as [N' H]. split; [exact N'|]. intro i. rewrite H. cbn. intuition (subst; auto; contradiction).
Qed.
Lemma parents_loop_spec vars free : forall parents, NoDup parents -> NoDup (parents_loop vars free parents) /\
  forall i, In i (parents_loop vars free parents) <-> In i parents \/ (In i (map rv_id free) /\ exists p, In p vars /\ computed_from p i).
Proof.
  induction vars as [|[|k l] vars IH]; intros parents N; cbn [parents_loop].
  - split; [exact N|]. intro i. split; [tauto|]. intros [H|(_ & p & [] & _)]. exact H.
  - destruct (IH parents N) as [N' H]. split; [exact N'|]. intro i. rewrite H. split; (intros [I|(I & p & J & C)]; [left; exact I|right; split; [exact I|]]).
    + exists p. split; [right; exact J|exact C].
    + destruct J as [<-|J]; [inversion C|]. exists p. auto.
  - destruct (add_free_spec (ancestors (Var k l)) free parents N) as [N1 H1]. destruct (IH _ N1) as [N' H]. split; [exact N'|].
    intro i. rewrite H, H1, ancestors_spec. split.
    + intros [[I|[C I]]|(I & p & J & C)]; [left; exact I| |]; right; (split; [exact I|]).
      * exists (Var k l). split; [left; reflexivity|exact C].
      * exists p. split; [right; exact J|exact C].
    + intros [I|(I & p & [<-|J] & C)]; [left; left; exact I|left; right; auto|right; split; [exact I|exists p; auto]].
Qed.
Lemma index_of_spec free i : In i (map rv_id free) -> exists n w, index_of free i = Ok n /\ nth_error free n = Some w /\ rv_id w = i.
Proof.
  induction free as [|v free IH]; cbn; [intros []|]. intro H. destruct (Nat.eqb_spec (rv_id v) i) as [E|E].
  - exists O, v. auto.
  - destruct H as [H|H]; [contradiction|]. destruct (IH H) as (n & w & E1 & E2 & E3). rewrite E1. exists (S n), w. auto.
Qed.
Lemma nth_ids free n k w u : NoDup (map rv_id free) -> nth_error free n = Some w -> nth_error free k = Some u -> rv_id w = rv_id u -> n = k.
Proof.
  intros N H1 H2 E. rewrite NoDup_nth_error in N. apply N.
  - rewrite map_length. apply nth_error_Some. congruence.
  - rewrite !nth_error_map, H1, H2. cbn. congruence.
Qed.
Lemma indices_of_spec free l : NoDup (map rv_id free) -> NoDup l -> (forall i, In i l -> In i (map rv_id free)) ->
  exists ns, indices_of free l = Ok ns /\ NoDup ns /\ forall n, In n ns <-> exists w, nth_error free n = Some w /\ In (rv_id w) l.
Proof.
  intros NF. induction l as [|i l IH]; intros N H; cbn [indices_of].
  - exists []. split; [reflexivity|]. split; [constructor|]. intro n. split; [intros []|intros (w & _ & [])].
  - inversion N as [|? ? Hni Nl]; subst. destruct (index_of_spec free i (H i (or_introl eq_refl))) as (n & w & E & Hn & Hi). rewrite E. cbn [bind].
    destruct IH as (ns & E2 & N2 & H2); [assumption|intros j J; apply H; right; exact J|]. rewrite E2. cbn [bind].
    exists (n :: ns). split; [reflexivity|]. split.
    + constructor; [|exact N2]. intro I. apply H2 in I. destruct I as (u & Hu & I). rewrite Hn in Hu. injection Hu as <-. rewrite Hi in I. contradiction.
    + intro k. split.
      * intros [<-|I]; [exists w; split; [exact Hn|left; congruence]|]. apply H2 in I. destruct I as (u & Hu & I). exists u. split; [exact Hu|right; exact I].
      * intros (u & Hu & [I|I]); [left; apply (nth_ids free n k w u NF Hn Hu); congruence|right; apply H2; eauto].
Qed.
Definition right_entry m (v : rv A) (e : vinfo A) : Prop :=
  v_shape e = rv_shape v /\ v_size e = prod (rv_shape v) /\ v_transf e = rv_backward v /\ NoDup (v_parents e) /\
  forall j, In j (v_parents e) <-> exists w, nth_error (free_RVs m) j = Some w /\ depends v w.
Lemma variable_info_spec ist unt m v : NoDup (map rv_id (free_RVs m)) -> named_by_pymc ist unt v ->
  exists e, variable_info ist unt m v = Ok (rv_name v, e) /\ right_entry m v e.
Proof.
  intros N W. unfold variable_info, non_constant_parents.
  destruct (parents_loop_spec (skipn 2 (rv_inputs v)) (free_RVs m) [] (NoDup_nil _)) as [N1 H1].
  destruct (indices_of_spec (free_RVs m) _ N N1) as (ns & E & N2 & H2).
  { intros i I. apply H1 in I. destruct I as [[]|[I _]]. exact I. }
  rewrite E. cbn [bind]. unfold named_by_pymc in W.
  assert (HP : forall j, In j ns <-> exists w, nth_error (free_RVs m) j = Some w /\ depends v w).
  { intro j. rewrite H2. split; intros (w & Hw & I); exists w; (split; [exact Hw|]).
    - apply H1 in I. destruct I as [[]|[_ I]]. exact I.
    - apply H1. right. split; [apply in_map, (nth_error_In _ _ Hw)|exact I]. }
  destruct (rv_backward v) as [f|] eqn:Eb.
  - destruct W as [W1 W2]. rewrite W1, W2. eexists. split; [reflexivity|]. repeat split; cbn; auto; apply HP.
  - destruct W as [W1 W2]. rewrite W2, W1. eexists. split; [reflexivity|]. repeat split; cbn; auto; apply HP.
Qed.
Lemma info_loop_spec ist unt m : NoDup (map rv_id (free_RVs m)) -> forall vars acc,
  Forall (named_by_pymc ist unt) vars -> NoDup (map fst acc ++ map rv_name vars) ->
  exists es, info_loop ist unt m vars acc = Ok (acc ++ combine (map rv_name vars) es)%list /\ Forall2 (right_entry m) vars es.
Proof.
  intro N. induction vars as [|v vars IH]; intros acc W D; cbn [info_loop map combine].
  - exists []. rewrite app_nil_r. auto.
  - inversion W; subst. destruct (variable_info_spec ist unt m v N H1) as (e & E & R). rewrite E. cbn [bind fst snd].
    cbn [map] in D. assert (Hnew : ~ In (rv_name v) (map fst acc)).
    { intro I. apply NoDup_remove_2 in D. apply D, in_app_iff. left. exact I. }
    rewrite put_new by exact Hnew.
    destruct (IH (acc ++ [(rv_name v, e)])%list H2) as (es & E2 & F).
    { rewrite map_app, <- app_assoc. exact D. }
    exists (e :: es). split; [rewrite E2, <- app_assoc; reflexivity|constructor; assumption].
Qed.
End P.

Lemma entries_names {A} (P : rv A -> vinfo A -> Prop) l es : Forall2 P l es -> map fst (combine (map rv_name l) es) = map rv_name l.
Proof. induction 1; cbn; congruence. Qed.
Lemma entries_nth {A} (P : rv A -> vinfo A -> Prop) l es : Forall2 P l es -> forall i v, nth_error l i = Some v ->
  exists e, nth_error (combine (map rv_name l) es) i = Some (rv_name v, e) /\ P v e.
Proof. induction 1 as [|v e l es H _ IH]; intros [|i] u Hu; cbn in *; try discriminate; [injection Hu as <-; eauto|apply IH, Hu]. Qed.

(** What is read from a PyMC model: one entry for each free variable, in order and under its own name, with its shape, size
    and transformation, and the positions of just those free variables that its distribution depends on. *)
Theorem C78_variables : forall A is_transformed untransformed (m : pymc_model A), well_made is_transformed untransformed m ->
  exists info num_draws, retrieve_variable_info is_transformed untransformed m = Ok (info, num_draws) /\
    hd_error (observed m) = Some num_draws /\ map fst info = map rv_name (free_RVs m) /\
    forall i v, nth_error (free_RVs m) i = Some v -> exists e, nth_error info i = Some (rv_name v, e) /\
      v_shape e = rv_shape v /\ v_size e = prod (rv_shape v) /\ v_transf e = rv_backward v /\ NoDup (v_parents e) /\
      forall j, In j (v_parents e) <-> exists w, nth_error (free_RVs m) j = Some w /\ depends v w.
Proof.
  intros A ist unt m [W1 W2 W3 W4]. unfold retrieve_variable_info.
  destruct (info_loop_spec ist unt m W2 (free_RVs m) [] W1 W3) as (es & E & F). rewrite E. cbn [bind app].
  destruct (observed m) as [|n obs]; [contradiction|]. do 2 eexists. split; [reflexivity|]. split; [reflexivity|]. clear E W1 W3.
  split; [eapply entries_names; exact F|]. intros i v Hv. destruct (entries_nth _ _ _ F i v Hv) as (e & E & R). exists e. split; [exact E|exact R].
Qed.

Lemma with_info_spec {A D} (info : list (text * vinfo A)) (np : list (text * D)) : NoDup (map fst info) ->
  forall l, map fst np = map fst l -> (forall x, In x l -> In x info) ->
  with_info np info = Ok (map (fun x => mkPrior (fst (fst x)) (snd (fst x)) (v_size (snd (snd x))) (v_parents (snd (snd x)))) (combine np l)).
Proof.
  intro N. induction np as [|[k d] np IH]; intros [|[k' e] l] E H; cbn in E; try discriminate; [reflexivity|].
  injection E as -> E. cbn [with_info combine map fst snd].
  assert (F : dict_find info k' = Some e).
  { specialize (H (k', e) (or_introl eq_refl)). clear - N H. induction info as [|[a b] info IH]; [destruct H|]. cbn in *. inversion N; subst.
    destruct H as [H|H]; [injection H as -> ->; rewrite text_eqb_refl; reflexivity|].
    destruct (text_eqb k' a) eqn:Q; [apply text_eqb_spec in Q; subst; exfalso; apply H2; apply in_map_iff; exists (a, e); auto|]. apply IH; assumption. }
  rewrite F, (IH l E (fun x I => H x (or_intror I))). reflexivity.
Qed.
Lemma priors_spec {A D} ist unt (m : pymc_model A) (dists : list D) repr refit show : well_made ist unt m ->
  List.length dists = List.length (free_RVs m) ->
  exists ps, new_model ist unt repr refit show m (combine (map rv_name (free_RVs m)) dists) = write_pymc_string repr refit show ps /\
    List.length ps = List.length (free_RVs m) /\
    forall i v d, nth_error (free_RVs m) i = Some v -> nth_error dists i = Some d -> exists p, nth_error ps i = Some p /\
      p_key p = rv_name v /\ p_dist p = d /\ p_size p = prod (rv_shape v) /\
      forall j, In j (p_parents p) <-> exists w, nth_error (free_RVs m) j = Some w /\ depends v w.
Proof.
  intros W L. destruct (C78_variables A ist unt m W) as (info & nd & E & _ & Hn & He). unfold new_model. rewrite E. cbn [bind fst].
  assert (Hfst : forall (l : list text) (x : list D), List.length x = List.length l -> map fst (combine l x) = l).
  { induction l as [|a l IH]; intros [|b x] Hl; cbn in *; try discriminate; [reflexivity|]. f_equal. apply IH. lia. }
  rewrite (with_info_spec info (combine (map rv_name (free_RVs m)) dists)) with (l := info).
  - cbn [bind]. eexists. split; [reflexivity|].
    assert (Li : List.length info = List.length (free_RVs m)) by (apply (f_equal (@List.length _)) in Hn; rewrite !map_length in Hn; exact Hn).
    split; [rewrite map_length, !combine_length, map_length; lia|].
    intros i v d Hv Hd. destruct (He i v Hv) as (e & Ee & S1 & S2 & S3 & S4 & S5).
    assert (Hc : forall X Y (l : list X) (l' : list Y) k a b, nth_error l k = Some a -> nth_error l' k = Some b -> nth_error (combine l l') k = Some (a, b)).
    { clear. intros X Y l. induction l as [|x l IH]; intros [|y l'] [|k] a b Ha Hb; cbn in *; try discriminate; [congruence|apply IH; assumption]. }
    eexists. rewrite nth_error_map, (Hc _ _ _ _ i (rv_name v, d) (rv_name v, e)); [|apply Hc; [rewrite nth_error_map, Hv; reflexivity|exact Hd]|exact Ee].
    cbn. split; [reflexivity|]. cbn. auto.
  - rewrite Hn. apply (w_names _ _ _ W).
  - rewrite Hfst by (rewrite map_length; exact L). symmetry. exact Hn.
  - auto.
Qed.
Lemma nth_skipn {X} n (l : list X) k : nth_error (skipn n l) k = nth_error l (n + k).
Proof. revert l. induction n as [|n IH]; intros [|x l]; cbn; try reflexivity; [destruct k; reflexivity|apply IH]. Qed.
Lemma nth_firstn {X} n (l : list X) k : (k < n)%nat -> nth_error (firstn n l) k = nth_error l k.
Proof. revert l k. induction n as [|n IH]; intros [|x l] [|k] H; cbn; try reflexivity; try lia. apply IH. lia. Qed.

Lemma nth_ex {X} (l : list X) i : (i < List.length l)%nat -> exists x, nth_error l i = Some x.
Proof. intro H. destruct (nth_error l i) eqn:E; [eauto|]. apply nth_error_None in E. lia. Qed.
Section Levels.
Context {A D : Type}.
Variables (ist : text -> bool) (unt : text -> text) (m : pymc_model A) (repr : D -> text) (refit : D -> D -> res D) (show : nat -> text).
Variables (roots children : list (rv A)) (dists : list D).
Hypothesis W : well_made ist unt m.
Hypothesis HF : free_RVs m = (roots ++ children)%list.
Hypothesis HR : Forall (independent m) roots.
Hypothesis HC : Forall (fun v => ~ independent m v) children.
Hypothesis HL : List.length dists = List.length (free_RVs m).
Lemma levels_split : exists rs cs, new_model ist unt repr refit show m (combine (map rv_name (free_RVs m)) dists) = write_pymc_string repr refit show (rs ++ cs) /\
  List.length rs = List.length roots /\ List.length cs = List.length children /\
  (forall i v d, nth_error roots i = Some v -> nth_error dists i = Some d -> exists p, nth_error rs i = Some p /\
     p_key p = rv_name v /\ p_dist p = d /\ p_size p = prod (rv_shape v) /\ p_parents p = []) /\
  (forall k v d, nth_error children k = Some v -> nth_error dists (List.length roots + k) = Some d -> exists p, nth_error cs k = Some p /\
     p_key p = rv_name v /\ p_dist p = d /\ p_size p = prod (rv_shape v) /\ p_parents p <> [] /\
     forall j, In j (p_parents p) <-> exists w, nth_error (free_RVs m) j = Some w /\ depends v w).
Proof using W HF HR HC HL.
  destruct (priors_spec ist unt m dists repr refit show W HL) as (ps & E & L & H).
  exists (firstn (List.length roots) ps), (skipn (List.length roots) ps). rewrite firstn_skipn. split; [exact E|].
  assert (Ll : List.length ps = (List.length roots + List.length children)%nat) by (rewrite L, HF, app_length; reflexivity).
  split; [rewrite firstn_length; lia|]. split; [rewrite skipn_length; lia|]. split.
  - intros i v d Hv Hd. assert (Hlt : (i < List.length roots)%nat) by (apply nth_error_Some; congruence).
    destruct (H i v d) as (p & P1 & P2 & P3 & P4 & P5); [rewrite HF, nth_error_app1 by exact Hlt; exact Hv|exact Hd|].
    exists p. rewrite nth_firstn by exact Hlt. repeat split; auto.
    destruct (p_parents p) as [|j r] eqn:Ep; [reflexivity|]. exfalso. destruct (P5 j) as [P5' _]. destruct (P5' (or_introl eq_refl)) as (w & Hw & Dw).
    rewrite Forall_forall in HR. apply (HR v (nth_error_In _ _ Hv) w); [apply (nth_error_In _ _ Hw)|exact Dw].
  - intros k v d Hv Hd.
    destruct (H (List.length roots + k)%nat v d) as (p & P1 & P2 & P3 & P4 & P5); [rewrite HF, nth_error_app2 by lia; rewrite Nat.add_comm, Nat.add_sub; exact Hv|exact Hd|].
    exists p. rewrite nth_skipn. repeat split; auto; try apply P5.
    intro Ep. rewrite Forall_forall in HC. apply (HC v (nth_error_In _ _ Hv)). intros w Hw Dw. apply In_nth_error in Hw. destruct Hw as [j Hw].
    assert (I : In j (p_parents p)) by (apply P5; eauto). rewrite Ep in I. destruct I.
Qed.
Lemma child_of (rs cs : list (prior D)) : List.length rs = List.length roots -> List.length cs = List.length children ->
  forall k c, nth_error cs k = Some c -> exists v d, nth_error children k = Some v /\ nth_error dists (List.length roots + k) = Some d.
Proof using HF HL.
  intros L1 L2 k c Hc. assert (Hk : (k < List.length cs)%nat) by (apply nth_error_Some; congruence).
  destruct (nth_ex children k) as [v Hv]; [lia|]. destruct (nth_ex dists (List.length roots + k)) as [d Hd]; [rewrite HL, HF, app_length; lia|]. eauto.
Qed.
End Levels.

(** The code written for a model of two levels, top-level variables first: one line for each top-level variable, in order,
    under its name and with its size. The distribution is its own fit if nothing depends on it, and otherwise that refitted to
    the last variable that depends on it. *)
Theorem C78_two_levels : forall A D is_transformed untransformed (m : pymc_model A) (repr : D -> text) refit show roots children dists,
  well_made is_transformed untransformed m -> free_RVs m = (roots ++ children)%list ->
  Forall (independent m) roots -> Forall (fun v => ~ independent m v) children ->
  (forall v w, In v children -> In w (free_RVs m) -> depends v w -> In w roots) ->
  List.length dists = List.length (free_RVs m) ->
  (forall d, exists name params, well_written repr d name params) -> (forall p c, exists d, refit p c = Ok d) ->
  exists lines, new_model is_transformed untransformed repr refit show m (combine (map rv_name (free_RVs m)) dists) =
      Ok (txt "with pm.Model() as model:" ++ nl ++ List.concat lines)%list /\
    List.length lines = List.length roots /\
    forall i v own line, nth_error roots i = Some v -> nth_error dists i = Some own -> nth_error lines i = Some line ->
      exists d, line_for repr show (rv_name v) d (prod (rv_shape v)) line /\
        ((d = own /\ forall c, In c children -> ~ depends c v) \/
         exists before c after dc, children = (before ++ c :: after)%list /\ depends c v /\ (forall x, In x after -> ~ depends x v) /\
           nth_error dists (List.length roots + List.length before) = Some dc /\ refit own dc = Ok d).
Proof.
  intros A D ist unt m repr refit show roots children dists W HF HR HC HT HL HW HO.
  destruct (levels_split ist unt m repr refit show roots children dists W HF HR HC HL) as (rs & cs & E & L1 & L2 & H1 & H2).
  rewrite E. pose proof (child_of m roots children dists HF HL rs cs L1 L2) as HX.
  assert (IDX : forall i v, nth_error roots i = Some v -> nth_error (free_RVs m) i = Some v).
  { intros i v Hv. rewrite HF, nth_error_app1; [exact Hv|]. apply nth_error_Some. congruence. }
  (* the parents of a hierarchical entry are the top-level variables it depends on *)
  assert (PAR : forall k c v, nth_error cs k = Some c -> nth_error children k = Some v -> forall i w, nth_error roots i = Some w -> In i (p_parents c) <-> depends v w).
  { intros k c v Hc Hv i w Hw. destruct (HX k c Hc) as (v' & d & Hv' & Hd). rewrite Hv in Hv'. injection Hv' as <-.
    destruct (H2 k v d Hv Hd) as (p & P1 & _ & _ & _ & _ & P5). rewrite Hc in P1. injection P1 as <-. rewrite P5. split.
    - intros (u & Hu & Du). rewrite (IDX i w Hw) in Hu. injection Hu as <-. exact Du.
    - intro Du. exists w. split; [apply IDX, Hw|exact Du]. }
  destruct (C41_one_line_each D repr refit show rs cs) as (lines & E1 & E2 & E3).
  - apply Forall_forall. intros p Hp. apply In_nth_error in Hp. destruct Hp as [i Hi].
    assert (Hlt : (i < List.length rs)%nat) by (apply nth_error_Some; congruence).
    destruct (nth_ex roots i) as [v Hv]; [lia|]. destruct (nth_ex dists i) as [d Hd]; [rewrite HL, HF, app_length; lia|].
    destruct (H1 i v d Hv Hd) as (p' & P1 & _ & _ & _ & P5). congruence.
  - apply Forall_forall. intros c Hc. apply In_nth_error in Hc. destruct Hc as [k Hk]. destruct (HX k c Hk) as (v & d & Hv & Hd).
    destruct (H2 k v d Hv Hd) as (p & P1 & _ & _ & _ & P4 & P5). rewrite Hk in P1. injection P1 as <-. split; [exact P4|].
    apply Forall_forall. intros j Hj. apply P5 in Hj. destruct Hj as (w & Hw & Dw).
    assert (Iw : In w roots) by (apply (HT v w); [apply (nth_error_In _ _ Hv)|apply (nth_error_In _ _ Hw)|exact Dw]).
    apply In_nth_error in Iw. destruct Iw as [i Hi]. rewrite L1. pose proof (IDX i w Hi) as Hi'.
    assert (j = i) by (apply (nth_ids (free_RVs m) j i w w (w_ids _ _ _ W) Hw Hi' eq_refl)). subst j. apply nth_error_Some. congruence.
  - exact HW.
  - intros p c _ _. apply HO.
  - exists lines. split; [exact E1|]. split; [lia|]. intros i v own line Hv Hd Hl.
    destruct (H1 i v own Hv Hd) as (p & P1 & P2 & P3 & P4 & P5). destruct (E3 i p line P1 Hl) as (d & Fd & Ld).
    rewrite P2, P4 in Ld. exists d. split; [exact Ld|]. rewrite P3 in Fd. destruct Fd as [[-> Fd]|(b & c & a & Ec & Ic & Fa & Rd)].
    + left. split; [reflexivity|]. intros u Hu. apply In_nth_error in Hu. destruct Hu as [k Hk].
      destruct (nth_ex cs k) as [c Hc]; [rewrite L2; apply nth_error_Some; congruence|].
      rewrite Forall_forall in Fd. specialize (Fd c (nth_error_In _ _ Hc)). rewrite (PAR k c u Hc Hk i v Hv) in Fd. exact Fd.
    + right. assert (Hc : nth_error cs (List.length b) = Some c) by (rewrite Ec, nth_error_app2, Nat.sub_diag by lia; reflexivity).
      destruct (HX _ c Hc) as (u & dc & Hu & Hdc). destruct (nth_error_split _ _ Hu) as (b' & a' & Es & Lb).
      exists b', u, a', dc. split; [exact Es|]. split; [apply (PAR _ c u Hc Hu i v Hv); exact Ic|]. split.
      * intros x Hx. apply In_nth_error in Hx. destruct Hx as [k Hk].
        assert (Hk' : nth_error children (List.length b + S k) = Some x) by (rewrite Es, nth_error_app2 by lia; replace (List.length b + S k - List.length b')%nat with (S k) by lia; exact Hk).
        destruct (nth_ex cs (List.length b + S k)) as [y Hy]; [rewrite L2; apply nth_error_Some; congruence|].
        rewrite <- (PAR _ y x Hy Hk' i v Hv). rewrite Forall_forall in Fa. apply Fa. rewrite Ec, nth_error_app2 in Hy by lia.
        replace (List.length b + S k - List.length b)%nat with (S k) in Hy by lia. cbn in Hy. apply (nth_error_In _ _ Hy).
      * rewrite Lb. split; [exact Hdc|]. destruct (H2 _ u dc Hu Hdc) as (p' & Q1 & _ & Q3 & _). rewrite Hc in Q1. injection Q1 as <-. rewrite Q3 in Rd. exact Rd.
Qed.
Lemma list_set_past l i x : (List.length l <= i)%nat -> list_set l i x = Err IndexError.
Proof. revert i. induction l as [|y l IH]; intros [|i] H; cbn in *; try reflexivity; try lia. rewrite IH by lia. reflexivity. Qed.
Section Past.
Context {D : Type}.
Variables (refit : D -> D -> res D) (line : text -> D -> nat -> res text) (all : list (prior D)).
Hypothesis HO : forall p c, exists d, refit p c = Ok d.
Hypothesis HLn : forall k d s, exists l, line k d s = Ok l.
Lemma parent_loop_cases value idxs : Forall (fun i => (i < List.length all)%nat) idxs -> forall vars,
  (Forall (fun i => (i < List.length vars)%nat) idxs /\ exists vars', parent_loop refit line all value idxs vars = Ok vars' /\ List.length vars' = List.length vars) \/
  (Exists (fun i => (List.length vars <= i)%nat) idxs /\ parent_loop refit line all value idxs vars = Err IndexError).
Proof using HO HLn.
  induction 1 as [|i idxs Hi _ IH]; intro vars; cbn [parent_loop].
  - left. split; [constructor|eauto].
  - destruct (nth_ex all i Hi) as [p Hp]. rewrite Hp. destruct (HO (p_dist p) value) as [d Hd]. rewrite Hd. cbn [bind].
    destruct (HLn (p_key p) d (p_size p)) as [l Hl]. rewrite Hl. cbn [bind].
    destruct (Nat.lt_ge_cases i (List.length vars)) as [Hlt|Hge].
    + destruct (list_set_ok vars i l Hlt) as [vars1 E]. rewrite E. cbn [bind]. apply list_set_some in E. destruct E as [L1 _].
      destruct (IH vars1) as [(F & vars' & E' & L')|(F & E')]; rewrite L1 in *.
      * left. split; [constructor; assumption|]. exists vars'. auto.
      * right. split; [right; exact F|exact E'].
    + right. split; [left; exact Hge|]. rewrite list_set_past by exact Hge. reflexivity.
Qed.
Lemma write_roots rs items : Forall (fun p => p_parents p = []) rs -> forall vars, exists vars',
  write_loop refit line line all (rs ++ items) vars = write_loop refit line line all items vars' /\ List.length vars' = (List.length vars + List.length rs)%nat.
Proof using HLn.
  induction 1 as [|p rs Hp _ IH]; intro vars; cbn [app write_loop List.length].
  - exists vars. split; [reflexivity|lia].
  - rewrite Hp. destruct (HLn (p_key p) (p_dist p) (p_size p)) as [l Hl]. rewrite Hl. cbn [bind]. destruct (IH (vars ++ [l])%list) as (vars' & E & L).
    exists vars'. split; [exact E|]. rewrite L, app_length. cbn. lia.
Qed.
Lemma write_past cs n : Forall (fun c => p_parents c <> [] /\ Forall (fun i => (i < List.length all)%nat) (p_parents c)) cs ->
  Exists (fun c => Exists (fun i => (n <= i)%nat) (p_parents c)) cs -> forall vars, List.length vars = n ->
  write_loop refit line line all cs vars = Err IndexError.
Proof using HO HLn.
  induction 1 as [|c cs [Hne Hc] _ IH]; intros HE vars L; [inversion HE|]. cbn [write_loop].
  destruct (parent_loop_cases (p_dist c) (p_parents c) Hc vars) as [(F & vars' & E & L')|(F & E)].
  - inversion HE as [? ? X|? ? X]; subst.
    + exfalso. rewrite Forall_forall in F. apply Exists_exists in X. destruct X as (i & I & X). specialize (F i I). lia.
    + destruct (p_parents c) as [|i0 r]; [contradiction|]. rewrite E. cbn [bind]. apply IH; [exact X|exact L'].
  - destruct (p_parents c) as [|i0 r]; [contradiction|]. rewrite E. reflexivity.
Qed.
End Past.

(** A model of three levels cannot be written: as soon as one hierarchical variable depends on another, IndexError. *)
Theorem C78_three_levels_refuted : forall A D is_transformed untransformed (m : pymc_model A) (repr : D -> text) refit show roots children dists,
  well_made is_transformed untransformed m -> free_RVs m = (roots ++ children)%list ->
  Forall (independent m) roots -> Forall (fun v => ~ independent m v) children ->
  (exists v w, In v children /\ In w children /\ depends v w) ->
  List.length dists = List.length (free_RVs m) ->
  (forall d, exists name params, well_written repr d name params) -> (forall p c, exists d, refit p c = Ok d) ->
  new_model is_transformed untransformed repr refit show m (combine (map rv_name (free_RVs m)) dists) = Err IndexError.
Proof.
  intros A D ist unt m repr refit show roots children dists W HF HR HC (v & w & Hv & Hw & Dvw) HL HW HO.
  destruct (levels_split ist unt m repr refit show roots children dists W HF HR HC HL) as (rs & cs & E & L1 & L2 & H1 & H2).
  rewrite E. pose proof (child_of m roots children dists HF HL rs cs L1 L2) as HX. unfold write_pymc_string.
  assert (HLn : forall k d s, exists l, pymc_line repr show k d s = Ok l).
  { intros k d s. destruct (HW d) as (n & p & Wd). eexists. apply pymc_line_expected. exact Wd. }
  assert (RS : Forall (fun p => p_parents p = []) rs).
  { apply Forall_forall. intros p Hp. apply In_nth_error in Hp. destruct Hp as [i Hi].
    assert (Hlt : (i < List.length rs)%nat) by (apply nth_error_Some; congruence).
    destruct (nth_ex roots i) as [u Hu]; [lia|]. destruct (nth_ex dists i) as [d Hd]; [rewrite HL, HF, app_length; lia|].
    destruct (H1 i u d Hu Hd) as (p' & P1 & _ & _ & _ & P5). congruence. }
  destruct (write_roots refit (pymc_line repr show) (rs ++ cs) HLn rs cs RS []) as (vars' & E' & L'). rewrite E'.
  rewrite (write_past refit (pymc_line repr show) (rs ++ cs) HO HLn cs (List.length rs)); [reflexivity| | |exact L'].
  - apply Forall_forall. intros c Hc. apply In_nth_error in Hc. destruct Hc as [k Hk]. destruct (HX k c Hk) as (u & d & Hu & Hd).
    destruct (H2 k u d Hu Hd) as (p & P1 & _ & _ & _ & P4 & P5). rewrite Hk in P1. injection P1 as <-. split; [exact P4|].
    apply Forall_forall. intros j Hj. apply P5 in Hj. destruct Hj as (x & Hx & _).
    assert (j < List.length (free_RVs m))%nat by (apply nth_error_Some; congruence). rewrite HF, app_length in H. rewrite app_length. lia.
  - apply In_nth_error in Hv. destruct Hv as [k Hk]. destruct (nth_ex cs k) as [c Hc]; [rewrite L2; apply nth_error_Some; congruence|].
    destruct (HX k c Hc) as (u & d & Hu & Hd). rewrite Hk in Hu. injection Hu as <-.
    destruct (H2 k v d Hk Hd) as (p & P1 & _ & _ & _ & _ & P5). rewrite Hc in P1. injection P1 as <-.
    apply Exists_exists. exists c. split; [apply (nth_error_In _ _ Hc)|]. apply In_nth_error in Hw. destruct Hw as [i Hi].
    apply Exists_exists. exists (List.length roots + i)%nat. split; [|lia]. apply P5. exists w. split; [|exact Dvw].
    rewrite HF, nth_error_app2 by lia. rewrite Nat.add_comm, Nat.add_sub. exact Hi.
Qed.

(* ---------------- examples ---------------- *)
(** PyMC names the value of a transformed variable name_transform__. *)
Definition demo_is (t : text) : bool := match rev t with a :: b :: _ => Ascii.eqb a "_" && Ascii.eqb b "_" | _ => false end.
Fixpoint drop_word (t : text) : text := match t with c :: r => if Ascii.eqb c "_" then r else drop_word r | [] => [] end.
Definition demo_unt (t : text) : text := match rev t with _ :: _ :: r => rev (drop_word r) | _ => t end.
Definition rng_size : list node := [Var 90 []; Constant].
(** mu ~ Normal(0, 10); sigma ~ HalfNormal(5); theta ~ Normal(mu, exp(sigma)), of three elements. *)
Definition mu_node : node := Var 0 (rng_size ++ [Constant; Constant]).
Definition sigma_node : node := Var 1 (rng_size ++ [Constant; Constant]).
Definition theta_node : node := Var 2 (rng_size ++ [mu_node; Var 50 [sigma_node]]).
Definition demo_rv (n : nat) (name value : string) (x : node) (shape : list nat) (f : option (list (list nat) -> list (list nat))) : rv nat :=
  mkRv n (txt name) (txt value) (match x with Var _ l => l | Constant => [] end) shape f.
Definition mu_rv := demo_rv 0 "mu" "mu" mu_node [] None.
Definition sigma_rv := demo_rv 1 "sigma" "sigma_log__" sigma_node [] (Some (map (map S))).
Definition theta_rv := demo_rv 2 "theta" "theta" theta_node [3] None.
Definition eta_rv := demo_rv 3 "eta" "eta" (Var 3 (rng_size ++ [theta_node; Constant])) [3] None.
Definition two_levels : pymc_model nat := mkModel [mu_rv; sigma_rv; theta_rv] [20].
Definition three_levels : pymc_model nat := mkModel [mu_rv; sigma_rv; theta_rv; eta_rv] [20].
Lemma demo_dep v w : In (rv_id w) (flat_map ancestors (skipn 2 (rv_inputs v))) <-> @depends nat v w.
Proof. rewrite in_flat_map. unfold depends. split; intros (p & I & C); exists p; (split; [exact I|]); apply ancestors_spec; exact C. Qed.
Lemma demo_well : well_made demo_is demo_unt two_levels /\ well_made demo_is demo_unt three_levels.
Proof.
  split; (split; [repeat constructor| | |discriminate]); cbn; repeat constructor; cbn; intuition discriminate.
Qed.
Example C78_applies : well_made demo_is demo_unt two_levels /\ free_RVs two_levels = ([mu_rv; sigma_rv] ++ [theta_rv])%list /\
  Forall (independent two_levels) [mu_rv; sigma_rv] /\ Forall (fun v => ~ independent two_levels v) [theta_rv] /\
  (forall v w, In v [theta_rv] -> In w (free_RVs two_levels) -> depends v w -> In w [mu_rv; sigma_rv]) /\
  (depends theta_rv mu_rv /\ depends theta_rv sigma_rv).
Proof.
  split; [apply demo_well|]. split; [reflexivity|]. split.
  { repeat constructor; intros w Hw Dw; apply demo_dep in Dw; cbn in *; intuition. }
  split.
  { constructor; [|constructor]. intro H. apply (H mu_rv); [left; reflexivity|]. apply demo_dep. cbn. tauto. }
  split.
  { intros v w [<-|[]] Hw Dw. apply demo_dep in Dw. cbn in *. intuition (subst; cbn in *; try discriminate; auto). }
  split; apply demo_dep; cbn; tauto.
Qed.
Example C78_written : new_model demo_is demo_unt demo_repr demo_refit demo_show two_levels [(txt "mu", 1); (txt "sigma", 2); (txt "theta", 7)] =
  Ok (txt "with pm.Model() as model:" ++ nl ++
      (txt "    mu = pm.Normal(" ++ quote ++ txt "mu" ++ quote ++ txt ", mu=7)" ++ nl) ++
      (txt "    sigma = pm.Normal(" ++ quote ++ txt "sigma" ++ quote ++ txt ", mu=7)" ++ nl))%list.
Proof. vm_compute. reflexivity. Qed.
Example C78_three_applies : well_made demo_is demo_unt three_levels /\ free_RVs three_levels = ([mu_rv; sigma_rv] ++ [theta_rv; eta_rv])%list /\
  Forall (independent three_levels) [mu_rv; sigma_rv] /\ Forall (fun v => ~ independent three_levels v) [theta_rv; eta_rv] /\ depends eta_rv theta_rv.
Proof.
  split; [apply demo_well|]. split; [reflexivity|]. split.
  { repeat constructor; intros w Hw Dw; apply demo_dep in Dw; cbn in *; intuition (subst; cbn in *; discriminate). }
  split.
  { repeat constructor; intro H; apply (H mu_rv); try (left; reflexivity); apply demo_dep; cbn; tauto. }
  apply demo_dep. cbn. tauto.
Qed.

Print Assumptions C78_variables.
Print Assumptions C78_two_levels.
Print Assumptions C78_three_levels_refuted.
