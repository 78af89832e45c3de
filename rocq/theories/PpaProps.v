(** Property theorems for the prior predictive session: C42. *)
From Coq Require Import List Bool Arith Reals Lra Lia Permutation.
From Verif Require Import Base XR PpaModel.
Import ListNotations.

(* ---------------- sets as lists ---------------- *)
Lemma mem_spec x l : mem x l = true <-> In x l.
Proof.
  unfold mem. rewrite existsb_exists. split; [intros (y & H & E); apply Nat.eqb_eq in E; subst; exact H|].
  intro H. exists x. rewrite Nat.eqb_refl. auto.
Qed.
Lemma mem_false x l : mem x l = false <-> ~ In x l.
Proof. rewrite <- mem_spec. destruct (mem x l); split; congruence. Qed.
Lemma update_in new : forall l x, In x (update l new) <-> In x l \/ In x new.
Proof.
  induction new as [|a new IH]; intros l x; cbn [update fold_left]; [cbn; tauto|]. unfold update in IH. rewrite IH. unfold add.
  destruct (mem a l) eqn:E; [apply mem_spec in E|]; cbn; [|rewrite in_app_iff; cbn]; intuition (subst; auto).
Qed.
Lemma update_nodup new : forall l, NoDup l -> NoDup (update l new).
Proof.
  induction new as [|a new IH]; intros l H; cbn [update fold_left]; [exact H|]. apply IH. unfold add. destruct (mem a l) eqn:E; [exact H|].
  apply mem_false in E. apply (NoDup_Add (a := a) (l := l)); [|auto]. rewrite <- (app_nil_r l) at 1. apply Add_app.
Qed.
Lemma nodup_app {A} (a b : list A) : NoDup (a ++ b) <-> NoDup a /\ NoDup b /\ (forall x, In x a -> In x b -> False).
Proof.
  induction a as [|x a IH]; cbn; [split; [intro H; split; [constructor|split; [exact H|intros ? []]]|tauto]|].
  split.
  - intro H. inversion H; subst. apply IH in H3. destruct H3 as (N1 & N2 & D). split; [constructor; [intro X; apply H2, in_app_iff; auto|exact N1]|].
    split; [exact N2|]. intros y [<-|Hy] Hb; [apply H2, in_app_iff; auto|eauto].
  - intros (N1 & N2 & D). inversion N1; subst. constructor.
    + rewrite in_app_iff. intros [X|X]; [contradiction|]. eapply D; [left; reflexivity|exact X].
    + apply IH. split; [assumption|]. split; [assumption|]. intros y Hy Hb. eapply D; [right; exact Hy|exact Hb].
Qed.

Section Ppa.
Variable draws : nat.
Variable order : nat -> list nat.
Variable distance : nat -> nat -> R.
Variables target_order : list nat.
Variable target_distance : nat -> R.
Variables lo hi : nat -> R.
Variables b0 b1 : xr.
Variable trimmed : list R -> xr.
Variable below : res nat.
Variable pick : list nat -> nat.
Variable grid : nat -> nat.
Hypothesis order_all : forall p, (p < draws)%nat -> Permutation (order p) (seq 0 draws).
Hypothesis target_all : Permutation target_order (seq 0 draws).
Hypothesis pick_in : forall l, l <> [] -> In (pick l) l.
Hypothesis below_range : forall v, below = Ok v -> (v <= draws)%nat.

Notation outside := (outside lo hi b0 b1).
Notation near_loop := (near_loop draws).
Notation far_loop := (far_loop below).
Notation far_batch := (far_batch draws order below).
Notation keep_batch := (keep_batch draws order distance).
Notation target_batch := (target_batch draws target_order target_distance).
Notation initialize_subsamples := (initialize_subsamples draws order target_order target_distance lo hi b0 b1 below pick).
Notation keep_sampling := (keep_sampling draws order distance).
Notation collect_more_samples := (collect_more_samples draws order distance lo hi b0 b1 trimmed).
Notation carry_on := (carry_on draws order distance target_order target_distance lo hi b0 b1 trimmed below pick).
Notation start := (start draws order target_order target_distance lo hi b0 b1 below pick grid).
Notation play := (play draws order distance target_order target_distance lo hi b0 b1 trimmed below pick).
Notation run := (run draws order distance target_order target_distance lo hi b0 b1 trimmed below pick grid).
Definition unseen (shown : list nat) : list nat := filter (fun i => negb (mem i shown)) (seq 0 draws).
Definition in_range (l : list nat) : Prop := Forall (fun i => (i < draws)%nat) l.

Lemma order_in p v : (p < draws)%nat -> In v (order p) <-> (v < draws)%nat.
Proof using order_all.
  intro H. split; intro X.
  - apply (Permutation_in _ (order_all p H)) in X. apply in_seq in X. lia.
  - apply (Permutation_in _ (Permutation_sym (order_all p H))). apply in_seq. lia.
Qed.
Lemma tl_in {A} (l : list A) x : In x (tl l) -> In x l.
Proof using. destruct l; cbn; auto. Qed.
Lemma unseen_in shown i : In i (unseen shown) <-> (i < draws)%nat /\ ~ In i shown.
Proof using. unfold unseen. rewrite filter_In, in_seq, negb_true_iff, mem_false. split; [intros [A B]; split; [lia|exact B]|intros [A B]; split; [lia|exact B]]. Qed.
Lemma unseen_nodup shown : NoDup (unseen shown).
Proof using. apply NoDup_filter, seq_NoDup. Qed.
Lemma in_range_not_draws l : in_range l -> ~ In draws l.
Proof using. intros H X. unfold in_range in H. rewrite Forall_forall in H. specialize (H _ X). lia. Qed.
Lemma last_in (l : list nat) d : l <> [] -> In (last l d) l.
Proof using. intro H. destruct (exists_last H) as (l' & x & ->). rewrite last_last. apply in_app_iff. cbn. auto. Qed.
Lemma snoc_nodup (l : list nat) x : NoDup l -> ~ In x l -> NoDup (l ++ [x]).
Proof using. intros H N. apply nodup_app. split; [exact H|]. split; [constructor; [intros []|constructor]|]. intros y Hy [->|[]]. contradiction. Qed.

Lemma near_loop_ok bad rest : forall new, bad draws = false -> exists r, near_loop bad rest new = Some r /\ bad r = false /\ (r = new \/ In r rest \/ r = draws).
Proof using.
  induction rest as [|v rest IH]; intros new HD; cbn.
  - destruct (bad new) eqn:E; [rewrite HD|]; eauto 6.
  - destruct (bad new) eqn:E; [|eauto 6]. destruct (IH v HD) as (r & E1 & E2 & [->|[H|H]]); eauto 8.
Qed.
Lemma keep_batch_ok n : forall shown samples new dists, in_range shown -> in_range samples -> NoDup samples -> samples <> [] -> In new samples \/ new = draws ->
  exists extra dists', keep_batch n shown samples new dists = Some ((samples ++ extra)%list, dists') /\ NoDup (samples ++ extra) /\
    (forall x, In x extra -> ~ In x shown) /\ in_range extra /\ (List.length extra <= n)%nat.
Proof using order_all.
  induction n as [|n IH]; intros shown samples new dists HS HR ND NE HN; cbn [PpaModel.keep_batch].
  - exists [], dists. rewrite app_nil_r. split; [reflexivity|]. split; [exact ND|]. split; [intros ? []|]. split; [constructor|cbn; lia].
  - set (bad := fun v => mem v samples || mem v shown).
    assert (HD : bad draws = false). { apply orb_false_iff. split; apply mem_false, in_range_not_draws; assumption. }
    destruct (near_loop_ok bad (tl (order (last samples 0%nat))) new HD) as (r & E & Hr & HI). rewrite E.
    destruct (Nat.eqb_spec r draws) as [->|Nr].
    + destruct (IH shown samples draws dists HS HR ND NE (or_intror eq_refl)) as (ex & d & A & B & C & D & F). exists ex, d.
      split; [exact A|]. split; [exact B|]. split; [exact C|]. split; [exact D|lia].
    + apply orb_false_iff in Hr. destruct Hr as [R1 R2]. apply mem_false in R1, R2.
      assert (Rr : (r < draws)%nat).
      { destruct HI as [->|[H|H]]; [|apply tl_in, order_in in H; [exact H|]|congruence].
        - destruct HN as [H|H]; [contradiction|congruence].
        - unfold in_range in HR. rewrite Forall_forall in HR. apply HR, last_in, NE. }
      destruct (IH shown (samples ++ [r])%list r (put dists r (distance (last samples 0%nat) r)) HS) as (ex & d & A & B & C & D & F).
      * apply Forall_app. split; [exact HR|]. constructor; [exact Rr|constructor].
      * apply snoc_nodup; assumption.
      * destruct samples; discriminate.
      * left. apply in_app_iff. cbn. auto.
      * exists (r :: ex), d. rewrite A, <- app_assoc. rewrite <- app_assoc in B. split; [reflexivity|]. split; [exact B|]. split; [intros x [<-|X]; [exact R2|auto]|].
        split; [constructor; assumption|cbn; lia].
Qed.
Lemma target_batch_ok n : forall batch new dists, in_range batch -> NoDup batch -> (forall v, new = Some v -> In v batch \/ v = draws) ->
  exists extra dists', target_batch n batch new dists = Some ((batch ++ extra)%list, dists') /\ NoDup (batch ++ extra) /\ in_range extra /\ (List.length extra <= n)%nat.
Proof using target_all.
  induction n as [|n IH]; intros batch new dists HR ND HN; cbn [PpaModel.target_batch].
  - exists [], dists. rewrite app_nil_r. split; [reflexivity|]. split; [exact ND|]. split; [constructor|cbn; lia].
  - set (bad := fun v => mem v batch).
    assert (HD : bad draws = false) by (apply mem_false, in_range_not_draws; assumption).
    assert (X : exists r, (match new with None => match tl target_order with [] => Some draws | v :: r => near_loop bad r v end
                           | Some new => near_loop bad (tl target_order) new end) = Some r /\ bad r = false /\ (In r target_order \/ r = draws)).
    { destruct new as [v|].
      - destruct (near_loop_ok bad (tl target_order) v HD) as (r & E & Hr & HI). exists r. split; [exact E|]. split; [exact Hr|].
        destruct HI as [->|[H|H]]; [|left; apply tl_in, H|auto]. destruct (HN v eq_refl) as [H|H]; [|auto]. exfalso. apply mem_false in Hr. contradiction.
      - destruct (tl target_order) as [|v l] eqn:Et; [eauto|]. destruct (near_loop_ok bad l v HD) as (r & E & Hr & HI). exists r. split; [exact E|]. split; [exact Hr|].
        assert (S : forall x, In x (v :: l) -> In x target_order) by (intros x Hx; rewrite <- Et in Hx; apply tl_in, Hx).
        destruct HI as [->|[H|H]]; [left; apply S; left; reflexivity|left; apply S; right; exact H|auto]. }
    destruct X as (r & E & Hr & HI). rewrite E. destruct (Nat.eqb_spec r draws) as [->|Nr].
    + destruct (IH batch (Some draws) dists HR ND) as (ex & d & A & B & D & F); [intros v [= <-]; auto|]. exists ex, d.
      split; [exact A|]. split; [exact B|]. split; [exact D|lia].
    + apply mem_false in Hr.
      assert (Rr : (r < draws)%nat).
      { destruct HI as [H|H]; [|congruence]. apply (Permutation_in _ target_all) in H. apply in_seq in H. lia. }
      destruct (IH (batch ++ [r])%list (Some r) (put dists r (target_distance r))) as (ex & d & A & B & D & F).
      * apply Forall_app. split; [exact HR|]. constructor; [exact Rr|constructor].
      * apply snoc_nodup; assumption.
      * intros v [= <-]. left. apply in_app_iff. cbn. auto.
      * exists (r :: ex), d. rewrite A, <- app_assoc. rewrite <- app_assoc in B. split; [reflexivity|]. split; [exact B|].
        split; [constructor; assumption|cbn; lia].
Qed.
(** Safety of the farthest-first batch, whatever the tree answers for neighbour zero. *)
Lemma far_loop_safe bad rest : forall new r, far_loop bad rest new = Some (Ok r) -> bad r = false /\ (r = new \/ In r rest \/ below = Ok r).
Proof using.
  clear below_range. induction rest as [|v rest IH]; intros new r; cbn.
  - destruct (bad new) eqn:E; [|intros [= <-]; auto]. destruct below as [w|e] eqn:Eb; [|discriminate].
    destruct (bad w) eqn:Ew; [discriminate|]. intros [= <-]. auto.
  - destruct (bad new) eqn:E; [|intros [= <-]; auto]. intro H. destruct (IH _ _ H) as [A [->|[B|B]]]; auto.
Qed.
Lemma far_batch_safe n : forall shown batch new out, in_range batch -> NoDup batch -> batch <> [] -> In new batch \/ new = draws ->
  far_batch n shown batch new = Some (Ok out) -> exists extra, out = (batch ++ extra)%list /\ NoDup out /\ (forall x, In x extra -> ~ In x shown) /\ in_range extra /\ (List.length extra <= n)%nat.
Proof using order_all below_range.
  induction n as [|n IH]; intros shown batch new out HR ND NE HN; cbn [PpaModel.far_batch].
  - intros [= <-]. exists []. rewrite app_nil_r. split; [reflexivity|]. split; [exact ND|]. split; [intros ? []|]. split; [constructor|cbn; lia].
  - set (bad := fun v => mem v batch || mem v shown). destruct (far_loop bad _ new) as [[r|e]|] eqn:E; try discriminate.
    apply far_loop_safe in E. destruct E as [Hr HI]. apply orb_false_iff in Hr. destruct Hr as [R1 R2]. apply mem_false in R1, R2.
    destruct (Nat.eqb_spec r draws) as [->|Nr]; intro H.
    + destruct (IH _ _ _ _ HR ND NE (or_intror eq_refl) H) as (ex & A & B & C & D & F). exists ex. split; [exact A|]. split; [exact B|]. split; [exact C|]. split; [exact D|lia].
    + assert (Rr : (r < draws)%nat).
      { destruct HI as [->|[X|X]].
        - destruct HN as [Y|Y]; [contradiction|congruence].
        - apply in_rev, order_in in X; [exact X|]. unfold in_range in HR. rewrite Forall_forall in HR. apply HR, last_in, NE.
        - apply below_range in X. lia. }
      destruct (IH shown (batch ++ [r])%list r out) as (ex & A & B & C & D & F).
      * apply Forall_app. split; [exact HR|]. constructor; [exact Rr|constructor].
      * apply snoc_nodup; assumption.
      * destruct batch; discriminate.
      * left. apply in_app_iff. cbn. auto.
      * exact H.
      * exists (r :: ex). rewrite A, <- app_assoc. split; [reflexivity|]. rewrite A, <- app_assoc in B. split; [exact B|].
        split; [intros x [<-|X]; [exact R2|auto]|]. split; [constructor; assumption|cbn; lia].
Qed.
(** It also ends, with all the samples it can find, when enough are left or neighbour zero is answered as missing. *)
Lemma far_loop_finds bad rest : forall new v, In v rest -> bad v = false -> exists r, far_loop bad rest new = Some (Ok r) /\ (r = new \/ In r rest).
Proof using.
  induction rest as [|w rest IH]; intros new v Hin Hv; [destruct Hin|]. destruct Hin as [<-|H]; cbn.
  - destruct (bad new) eqn:E; [|eauto]. assert (X : far_loop bad rest w = Some (Ok w)) by (destruct rest; cbn; rewrite Hv; reflexivity). rewrite X. eauto 6.
  - destruct (bad new) eqn:E; [|eauto]. destruct (IH w v H Hv) as (r & A & [->|B]); eauto 6.
Qed.
Lemma far_loop_exhausted bad rest : forall new, bad new = true -> (forall v, In v rest -> bad v = true) ->
  far_loop bad rest new = match below with Err e => Some (Err e) | Ok v => if bad v then None else Some (Ok v) end.
Proof using.
  induction rest as [|w rest IH]; intros new Hn H; cbn; rewrite Hn; [reflexivity|]. apply IH; [apply H; left; reflexivity|]. intros v Hv. apply H. right. exact Hv.
Qed.
Lemma far_batch_total n : forall shown batch new, in_range shown -> in_range batch -> NoDup batch -> batch <> [] -> (forall x, In x batch -> ~ In x shown) ->
  In new batch \/ (new = draws /\ incl (unseen shown) batch) ->
  below = Ok draws \/ (List.length batch + n <= List.length (unseen shown))%nat ->
  exists out, far_batch n shown batch new = Some (Ok out) /\ List.length out = Nat.max (List.length batch) (Nat.min (List.length batch + n) (List.length (unseen shown))).
Proof using order_all.
  induction n as [|n IH]; intros shown batch new HS HR ND NE HD HN HB; cbn [PpaModel.far_batch].
  - exists batch. split; [reflexivity|]. lia.
  - set (bad := fun v => mem v batch || mem v shown).
    assert (BI : incl batch (unseen shown)).
    { intros x Hx. apply unseen_in. split; [unfold in_range in HR; rewrite Forall_forall in HR; auto|auto]. }
    assert (LE : (List.length batch <= List.length (unseen shown))%nat) by (apply NoDup_incl_length; assumption).
    assert (BD : bad draws = false). { apply orb_false_iff. split; apply mem_false, in_range_not_draws; assumption. }
    assert (LB : (last batch 0 < draws)%nat). { unfold in_range in HR. rewrite Forall_forall in HR. apply HR, last_in, NE. }
    destruct (lt_dec (List.length batch) (List.length (unseen shown))) as [Lt|Ge].
    + (* something is left *)
      assert (X : exists v, In v (unseen shown) /\ ~ In v batch).
      { destruct (Exists_dec (fun v => ~ In v batch) (unseen shown)) as [Y|Y].
        - intro v. destruct (in_dec Nat.eq_dec v batch); [right; intro X; apply X; assumption|left; assumption].
        - apply Exists_exists in Y. exact Y.
        - exfalso. apply (Nat.lt_irrefl (List.length batch)). eapply Nat.lt_le_trans; [exact Lt|]. apply NoDup_incl_length; [apply unseen_nodup|].
          intros v Hv. destruct (in_dec Nat.eq_dec v batch); [assumption|]. exfalso. apply Y, Exists_exists. exists v. auto. }
      destruct X as (v & Hv & Hnb). apply unseen_in in Hv. destruct Hv as [Hv1 Hv2].
      destruct (far_loop_finds bad (rev (order (last batch 0%nat))) new v) as (r & E & HI).
      { apply -> in_rev. apply order_in; assumption. }
      { apply orb_false_iff. split; apply mem_false; assumption. }
      rewrite E. apply far_loop_safe in E. destruct E as [Hr _]. apply orb_false_iff in Hr. destruct Hr as [R1 R2]. apply mem_false in R1, R2.
      assert (Nnew : In new batch). { destruct HN as [H|[_ H]]; [exact H|]. exfalso. apply Hnb, H, unseen_in. auto. }
      assert (Rr : (r < draws)%nat). { destruct HI as [->|X]; [contradiction|]. apply in_rev, order_in in X; assumption. }
      destruct (Nat.eqb_spec r draws); [lia|].
      destruct (IH shown (batch ++ [r])%list r) as (out & A & B).
      * exact HS.
      * apply Forall_app. split; [exact HR|]. constructor; [exact Rr|constructor].
      * apply snoc_nodup; assumption.
      * destruct batch; discriminate.
      * intros x Hx. apply in_app_iff in Hx. destruct Hx as [Hx|[<-|[]]]; auto.
      * left. apply in_app_iff. cbn. auto.
      * rewrite app_length. cbn. destruct HB as [HB|HB]; [left; exact HB|right; lia].
      * exists out. split; [exact A|]. rewrite B, app_length. cbn. lia.
    + (* nothing is left *)
      destruct HB as [HB|HB]; [|lia].
      assert (UI : incl (unseen shown) batch) by (apply NoDup_length_incl; [exact ND|lia|exact BI]).
      assert (E : far_loop bad (rev (order (last batch 0%nat))) new = Some (Ok draws)).
      { destruct HN as [HN|[-> _]].
        - rewrite far_loop_exhausted; [rewrite HB, BD; reflexivity|apply orb_true_iff; left; apply mem_spec, HN|].
          intros v Hv. apply in_rev, order_in in Hv; [|exact LB]. apply orb_true_iff.
          destruct (in_dec Nat.eq_dec v shown) as [Y|Y]; [right; apply mem_spec, Y|left; apply mem_spec, UI, unseen_in; auto].
        - destruct (rev (order (last batch 0%nat))); cbn; rewrite BD; reflexivity. }
      rewrite E, Nat.eqb_refl. destruct (IH shown batch draws HS HR ND NE HD) as (out & A & B); [right; auto|left; exact HB|]. exists out. split; [exact A|]. lia.
Qed.

(* ---------------- the invariant of a session ---------------- *)
Definition displayed (batches : list (list nat)) : list nat := List.concat batches.
Record inv (target : bool) (batches : list (list nat)) (s : session) : Prop := {
  i_shown_nodup : NoDup (s_shown s); i_shown_range : in_range (s_shown s);
  i_displayed_shown : incl (displayed batches) (s_shown s); i_displayed_nodup : NoDup (displayed batches);
  i_size : Forall (fun b => (List.length b <= 9)%nat) batches;
  i_outside : forall i, (i < draws)%nat -> outside i = true -> In i (s_shown s);
  i_choices : incl (s_choices s) (displayed batches);
  i_choices_sel : incl (s_choices s) (s_selected s);
  i_titles : forall t, In (Some t) (s_titles s) -> In t (displayed batches);
  i_seen : forall i, In i (s_shown s) -> In i (displayed batches) \/ outside i = true \/ In i (s_selected s);
  i_inside : target = false -> forall i, In i (displayed batches) -> outside i = false;
  i_sel_shown : incl (s_selected s) (s_shown s) }.

Lemma full_shown shown : NoDup shown -> in_range shown -> List.length shown = draws -> forall i, (i < draws)%nat -> In i shown.
Proof using.
  intros ND HR HL i Hi. assert (X : incl (seq 0 draws) shown).
  { apply NoDup_length_incl; [exact ND|rewrite seq_length; lia|]. intros x Hx. unfold in_range in HR. rewrite Forall_forall in HR. apply in_seq. specialize (HR _ Hx). lia. }
  apply X, in_seq. lia.
Qed.
Definition base_shown (s : session) : list nat := update (s_shown s) (filter outside (seq 0 draws)).
Lemma base_in s i : In i (base_shown s) <-> In i (s_shown s) \/ ((i < draws)%nat /\ outside i = true).
Proof using. unfold base_shown. rewrite update_in, filter_In, in_seq. split; (intros [A|[A B]]; [auto|right; split; [lia|exact B]]). Qed.
Lemma base_range s : in_range (s_shown s) -> in_range (base_shown s).
Proof using.
  intro H. apply Forall_forall. intros i Hi. apply base_in in Hi. unfold in_range in H. rewrite Forall_forall in H. destruct Hi as [Hi|[Hi _]]; auto.
Qed.
(** What one call of initialize_subsamples may do. *)
Lemma initialize_ok target s batch s' : NoDup (s_shown s) -> in_range (s_shown s) -> initialize_subsamples target s = Some (Ok (batch, s')) ->
  NoDup batch /\ in_range batch /\ (List.length batch <= 9)%nat /\
  (target = false -> forall x, In x batch -> ~ In x (base_shown s)) /\
  (batch = [] -> target = false -> forall i, (i < draws)%nat -> In i (base_shown s)) /\
  s_shown s' = update (base_shown s) batch /\ s_selected s' = s_selected s /\ s_choices s' = s_choices s /\ s_titles s' = s_titles s /\ s_clicked s' = s_clicked s.
Proof using order_all target_all pick_in below_range.
  intros ND HR. unfold PpaModel.initialize_subsamples. fold (base_shown s).
  assert (NDB : NoDup (base_shown s)) by (apply update_nodup; exact ND). pose proof (base_range s HR) as HRB.
  destruct (Nat.eqb_spec (List.length (base_shown s)) draws) as [Ef|Nf].
  - intros [= <- <-]. cbn. split; [constructor|]. split; [constructor|]. split; [lia|]. split; [intros _ ? []|]. split; [|auto].
    intros _ _. apply full_shown; assumption.
  - destruct target.
    + destruct (target_batch_ok 9 [] None (s_distances s)) as (ex & d & A & B & C & D); [constructor|constructor|discriminate|].
      rewrite A. intros [= <- <-]. cbn [app] in *. split; [exact B|]. split; [exact C|]. split; [exact D|]. split; [discriminate|]. split; [discriminate|]. cbn. auto.
    + set (new := pick (filter (fun i => negb (mem i (base_shown s))) (seq 0 draws))).
      assert (NU : unseen (base_shown s) <> []).
      { intro E. apply Nf. assert (X : incl (seq 0 draws) (base_shown s)).
        { intros i Hi. destruct (in_dec Nat.eq_dec i (base_shown s)); [assumption|]. exfalso. assert (Y : In i (unseen (base_shown s))) by (apply unseen_in; apply in_seq in Hi; split; [lia|assumption]).
          rewrite E in Y. exact Y. }
        apply Nat.le_antisymm.
        - apply Nat.le_trans with (List.length (seq 0 draws)); [|rewrite seq_length; apply Nat.le_refl]. apply NoDup_incl_length; [exact NDB|]. intros i Hi. unfold in_range in HRB. rewrite Forall_forall in HRB. apply in_seq. specialize (HRB _ Hi). lia.
        - apply Nat.le_trans with (List.length (seq 0 draws)); [rewrite seq_length; apply Nat.le_refl|]. apply NoDup_incl_length; [apply seq_NoDup|exact X]. }
      assert (PN : In new (unseen (base_shown s))) by (apply pick_in; exact NU). apply unseen_in in PN. destruct PN as [P1 P2].
      destruct (far_batch 8 (base_shown s) [new] new) as [[out|e]|] eqn:E; try discriminate. intros [= <- <-].
      apply far_batch_safe in E; [|constructor; [exact P1|constructor]|constructor; [intros []|constructor]|discriminate|left; left; reflexivity].
      destruct E as (ex & -> & N & D & R & L). split; [exact N|]. split; [constructor; assumption|]. split; [cbn; lia|].
      split; [intros _ x [<-|Hx]; auto|]. split; [discriminate|]. cbn. auto.
Qed.

Lemma titles_of_in titles clicked ts : titles_of titles clicked = Ok ts -> forall t, In t ts <-> exists c, In c clicked /\ nth c titles None = Some t.
Proof using.
  revert ts. induction clicked as [|c l IH]; intros ts; cbn.
  - intros [= <-] t. split; [intros []|intros (? & [] & _)].
  - destruct (nth c titles None) as [u|] eqn:E; [|discriminate]. destruct (titles_of titles l) as [us|] eqn:El; cbn; [|discriminate].
    intros [= <-] t. specialize (IH us eq_refl t). cbn. rewrite IH. split.
    + intros [<-|(x & A & B)]; eauto.
    + intros (x & [<-|A] & B); [left; congruence|eauto].
Qed.
Lemma nth_title (titles : list (option nat)) c t : nth c titles None = Some t -> In (Some t) titles.
Proof using. intro H. rewrite <- H. destruct (lt_dec c (List.length titles)) as [L|L]; [apply nth_In, L|]. rewrite nth_overflow in H by lia. discriminate. Qed.
Lemma retitle_in titles batch t : In (Some t) (retitle titles batch) -> In t batch \/ In (Some t) titles.
Proof using.
  unfold retitle. rewrite in_app_iff. intros [H|H].
  - left. assert (X : In (Some t) (map Some batch)) by (rewrite <- (firstn_skipn (List.length titles) (map Some batch)); apply in_app_iff; auto).
    apply in_map_iff in X. destruct X as (y & [= ->] & X). exact X.
  - right. rewrite <- (firstn_skipn (List.length batch) titles). apply in_app_iff. auto.
Qed.

(** The automatic extension of the accepted set (collect_more_samples). *)
Definition machine_ok (i : nat) : Prop := (i < draws)%nat /\ (xisfinite b0 || xisfinite b1 = true -> xltb b0 (Fin (lo i)) = true /\ xltb (Fin (hi i)) b1 = true).
Lemma collect_ok s : in_range (s_selected s) -> exists new, (forall i, In i new -> machine_ok i) /\
  collect_more_samples s = mkSession (update (s_shown s) new) (update (s_selected s) new) (s_choices s) (s_distances s) (s_titles s) (s_clicked s).
Proof using order_all.
  intro HR. unfold PpaModel.collect_more_samples. set (ds := map snd _).
  destruct (if Nat.ltb 2 (List.length ds) then (trimmed ds, draws) else (PInf, 3%nat)) as [md up].
  set (cand := flat_map _ (s_selected s)). eexists. split; [|reflexivity].
  assert (C : forall i, In i cand -> (i < draws)%nat).
  { intros i Hi. apply in_flat_map in Hi. destruct Hi as (p & Hp & Hi). apply filter_In in Hi. destruct Hi as [Hi _].
    unfold in_range in HR. rewrite Forall_forall in HR. apply (order_in p i (HR p Hp)). apply tl_in.
    rewrite <- (firstn_skipn (up - 2) (tl (order p))). apply in_app_iff. auto. }
  intros i Hi. destruct (xisfinite b0 || xisfinite b1) eqn:E.
  - apply filter_In in Hi. destruct Hi as [Hi X]. apply andb_true_iff in X. split; [auto|]. auto.
  - split; [auto|]. rewrite E. discriminate.
Qed.

Definition fair (sh : list nat -> list nat) : Prop := forall l, Permutation (sh l) l.
Definition clicked_titles (s : session) (t : nat) : Prop := exists c, In c (s_clicked s) /\ nth c (s_titles s) None = Some t.
(** State in which the next batch is looked for: the clicks have been taken into account. *)
Lemma carry_on_step target batches s sh batch s' : inv target batches s -> fair sh -> carry_on sh s = Some (Ok (batch, s')) ->
  inv target (batch :: batches) s' /\
  (forall i, In i (s_selected s) -> In i (s_selected s')) /\
  (forall t, clicked_titles s t -> In t (s_selected s')) /\
  (forall i, In i (s_selected s') -> In i (s_selected s) \/ clicked_titles s i \/ machine_ok i) /\
  (forall i, In i batch -> ~ In i (s_selected s') /\ outside i = false) /\
  (batch = [] -> forall i, (i < draws)%nat -> In i (s_shown s')).
Proof using order_all target_all pick_in below_range.
  clear grid. intros I HS. unfold PpaModel.carry_on.
  set (prep := match s_clicked s with [] => _ | _ => _ end).
  assert (P : forall s1, prep = Ok s1 -> inv target batches s1 /\ (forall i, In i (s_selected s) -> In i (s_selected s1)) /\
    (forall t, clicked_titles s t -> In t (s_selected s1)) /\ (forall i, In i (s_selected s1) -> In i (s_selected s) \/ clicked_titles s i \/ machine_ok i)).
  { intros s1. unfold prep. clear prep. destruct (s_clicked s) as [|c0 cl] eqn:Ec.
    - intros [= <-]. split; [exact I|]. split; [auto|]. split; [|auto]. intros t (c & X & _). rewrite Ec in X. destruct X.
    - rewrite <- Ec. destruct (titles_of (s_titles s) (s_clicked s)) as [ts|] eqn:Et; cbn [bind]; [|discriminate].
      set (ch := sh (s_choices s ++ ts)%list).
      assert (CH : forall i, In i ch <-> In i (s_choices s) \/ In i ts).
      { intro i. rewrite <- in_app_iff. split; apply Permutation_in; [apply HS|apply Permutation_sym, HS]. }
      pose proof (titles_of_in _ _ _ Et) as TI.
      assert (TD : forall t, In t ts -> In t (displayed batches)).
      { intros t Ht. apply TI in Ht. destruct Ht as (c & _ & N). apply (i_titles _ _ _ I), (nth_title _ c), N. }
      destruct (collect_ok (mkSession (s_shown s) (update (s_selected s) ch) ch (s_distances s) (s_titles s) (s_clicked s))) as (new & MO & Ecol).
      { cbn. apply Forall_forall. intros i Hi. apply update_in in Hi.
        assert (In i (s_shown s)) as X; [|pose proof (i_shown_range _ _ _ I) as R; unfold in_range in R; rewrite Forall_forall in R; auto].
        destruct Hi as [Hi|Hi]; [apply (i_sel_shown _ _ _ I), Hi|]. apply CH in Hi. apply (i_displayed_shown _ _ _ I).
        destruct Hi as [Hi|Hi]; [apply (i_choices _ _ _ I), Hi|apply TD, Hi]. }
      rewrite Ecol. cbn [s_shown s_selected s_choices s_distances s_titles s_clicked]. intros [= <-].
      split; [|split; [|split]]; cbn [s_shown s_selected s_choices s_distances s_titles s_clicked].
      + destruct I. constructor; cbn [s_shown s_selected s_choices s_distances s_titles s_clicked].
        * apply update_nodup; assumption.
        * apply Forall_forall. intros i Hi. apply update_in in Hi. unfold in_range in i_shown_range0. rewrite Forall_forall in i_shown_range0.
          destruct Hi as [Hi|Hi]; [auto|apply MO, Hi].
        * intros i Hi. apply update_in. auto.
        * assumption.
        * assumption.
        * intros i Hi Ho. apply update_in. auto.
        * intros i Hi. apply CH in Hi. destruct Hi as [Hi|Hi]; [apply i_choices0, Hi|apply TD, Hi].
        * intros i Hi. apply update_in. left. apply update_in. auto.
        * intros t Ht. apply in_map_iff in Ht. destruct Ht as (? & X & _). discriminate.
        * intros i Hi. rewrite !update_in in *. destruct Hi as [Hi|Hi]; [|auto]. destruct (i_seen0 i Hi) as [X|[X|X]]; auto.
        * assumption.
        * intros i Hi. rewrite !update_in in *. destruct Hi as [[Hi|Hi]|Hi]; [left; auto| |auto]. left. apply CH in Hi. apply i_displayed_shown0.
          destruct Hi as [Hi|Hi]; [apply i_choices0, Hi|apply TD, Hi].
      + intros i Hi. rewrite !update_in. auto.
      + intros t Ht. rewrite !update_in. left. right. apply CH. right. apply TI. exact Ht.
      + intros i Hi. rewrite !update_in in Hi. destruct Hi as [[Hi|Hi]|Hi]; [auto| |auto]. apply CH in Hi. destruct Hi as [Hi|Hi].
        * left. apply (i_choices_sel _ _ _ I), Hi.
        * right. left. apply TI, Hi. }
  destruct prep as [s1|e] eqn:Ep; [|discriminate]. destruct (P s1 eq_refl) as (I1 & G1 & G2 & G3). clear P Ep prep.
  destruct (keep_sampling s1) as [[kb s2]|] eqn:Ek; [|discriminate].
  (* the neighbours of a choice *)
  assert (K : NoDup kb /\ in_range kb /\ (List.length kb <= 9)%nat /\ (forall x, In x kb -> ~ In x (s_shown s1)) /\
    s_shown s2 = update (s_shown s1) kb /\ s_selected s2 = s_selected s1 /\ incl (s_choices s2) (s_choices s1) /\ s_titles s2 = s_titles s1 /\ s_clicked s2 = s_clicked s1).
  { revert Ek. unfold PpaModel.keep_sampling. destruct (s_choices s1) as [|new ch] eqn:Ech.
    - intros [= <- <-]. split; [constructor|]. split; [constructor|]. split; [cbn; lia|]. split; [intros ? []|]. cbn. rewrite Ech. split; [reflexivity|]. split; [reflexivity|]. split; [apply incl_refl|auto].
    - assert (Hn : (new < draws)%nat).
      { pose proof (i_shown_range _ _ _ I1) as R. unfold in_range in R. rewrite Forall_forall in R. apply R, (i_displayed_shown _ _ _ I1), (i_choices _ _ _ I1). rewrite Ech. left. reflexivity. }
      destruct (keep_batch_ok 9 (s_shown s1) [new] new (s_distances s1)) as (ex & d & A & B & C & D & F);
        [apply (i_shown_range _ _ _ I1)|constructor; [exact Hn|constructor]|constructor; [intros []|constructor]|discriminate|left; left; reflexivity|].
      rewrite A. intros [= <- <-]. cbn [tl app] in *. inversion B; subst. split; [assumption|]. split; [exact D|]. split; [exact F|]. split; [exact C|]. cbn.
      split; [reflexivity|]. split; [reflexivity|]. split; [intros x Hx; right; exact Hx|auto]. }
  destruct K as (K1 & K2 & K3 & K4 & K5 & K6 & K7 & K8 & K9). clear Ek.
  (* whichever way the batch was found *)
  assert (F : forall bt s3, (match kb with [] => initialize_subsamples false s2 | _ => Some (Ok (kb, s2)) end) = Some (Ok (bt, s3)) ->
    NoDup bt /\ in_range bt /\ (List.length bt <= 9)%nat /\ (forall x, In x bt -> ~ In x (s_shown s1) /\ outside x = false) /\
    (bt = [] -> forall i, (i < draws)%nat -> In i (s_shown s3)) /\
    NoDup (s_shown s3) /\ (forall i, In i (s_shown s3) <-> In i (s_shown s1) \/ In i bt) /\ s_selected s3 = s_selected s1 /\ incl (s_choices s3) (s_choices s1) /\ s_titles s3 = s_titles s1).
  { intros bt s3. destruct kb as [|k0 kb].
    - cbn [update fold_left] in K5. intro E. apply initialize_ok in E; [|rewrite K5; apply (i_shown_nodup _ _ _ I1)|rewrite K5; apply (i_shown_range _ _ _ I1)].
      destruct E as (E1 & E2 & E3 & E4 & E5 & E6 & E7 & E8 & E9 & _).
      assert (BS : forall i, In i (base_shown s2) <-> In i (s_shown s1)).
      { intro i. rewrite base_in, K5. split; [intros [H|[H1 H2]]; [exact H|apply (i_outside _ _ _ I1); assumption]|auto]. }
      split; [exact E1|]. split; [exact E2|]. split; [exact E3|]. split.
      { intros x Hx. split; [rewrite <- BS; apply E4; auto|]. destruct (outside x) eqn:Eo; [|reflexivity]. exfalso.
        apply (E4 eq_refl x Hx). apply base_in. right. split; [|exact Eo]. unfold in_range in E2. rewrite Forall_forall in E2. auto. }
      split; [intros -> i Hi; rewrite E6; apply update_in; left; apply E5; auto|].
      split; [rewrite E6; apply update_nodup, update_nodup; rewrite K5; apply (i_shown_nodup _ _ _ I1)|].
      split; [intro i; rewrite E6, update_in, BS; tauto|]. rewrite E7, E8, E9. auto.
    - intros [= <- <-]. split; [exact K1|]. split; [exact K2|]. split; [exact K3|]. split.
      { intros x Hx. split; [auto|]. destruct (outside x) eqn:Eo; [|reflexivity]. exfalso. apply (K4 x Hx), (i_outside _ _ _ I1); [|exact Eo].
        unfold in_range in K2. rewrite Forall_forall in K2. auto. }
      split; [discriminate|]. split; [rewrite K5; apply update_nodup, (i_shown_nodup _ _ _ I1)|]. split; [intro i; rewrite K5, update_in; tauto|]. auto. }
  destruct (match kb with [] => _ | _ => _ end) as [[[bt s3]|e]|]; try discriminate.
  destruct (F bt s3 eq_refl) as (F1 & F2 & F3 & F4 & F5 & F6 & F7 & F8 & F9 & F10). clear F.
  intros [= <- <-]. cbn [s_shown s_selected s_choices s_distances s_titles s_clicked]. rewrite F8.
  split; [|split; [exact G1|split; [exact G2|split; [exact G3|split]]]].
  - destruct I1. constructor; cbn [s_shown s_selected s_choices s_distances s_titles s_clicked]; rewrite ?F8.
    + exact F6.
    + apply Forall_forall. intros i Hi. apply F7 in Hi. unfold in_range in *. rewrite Forall_forall in *. destruct Hi; auto.
    + intros i Hi. unfold displayed in Hi. cbn [List.concat] in Hi. apply in_app_iff in Hi. apply F7. destruct Hi as [Hi|Hi]; [auto|left; apply i_displayed_shown0, Hi].
    + unfold displayed. cbn [List.concat]. apply nodup_app. split; [exact F1|]. split; [exact i_displayed_nodup0|]. intros x Hx Hy. apply (proj1 (F4 x Hx)), i_displayed_shown0, Hy.
    + constructor; assumption.
    + intros i Hi Ho. apply F7. left. auto.
    + intros i Hi. unfold displayed. cbn [List.concat]. apply in_app_iff. right. apply i_choices0, F9, Hi.
    + intros i Hi. apply i_choices_sel0, F9, Hi.
    + intros t Ht. unfold displayed. cbn [List.concat]. apply in_app_iff. destruct bt as [|b bt]; [destruct Ht|]. apply retitle_in in Ht. rewrite F10 in Ht.
      destruct Ht as [Ht|Ht]; [auto|right; apply i_titles0, Ht].
    + intros i Hi. unfold displayed. cbn [List.concat]. rewrite in_app_iff. apply F7 in Hi. destruct Hi as [Hi|Hi]; [|auto]. destruct (i_seen0 i Hi) as [X|[X|X]]; auto.
    + intros Ht i Hi. unfold displayed in Hi. cbn [List.concat] in Hi. apply in_app_iff in Hi. destruct Hi as [Hi|Hi]; [apply F4, Hi|apply i_inside0; assumption].
    + intros i Hi. apply F7. left. apply i_sel_shown0, Hi.
  - intros i Hi. split; [|apply F4, Hi]. intro X. apply (proj1 (F4 i Hi)), (i_sel_shown _ _ _ I1), X.
  - exact F5.
Qed.

Lemma start_inv target batch s : start target = Some (Ok (batch, s)) -> inv target [batch] s /\ (batch = [] -> target = false -> forall i, (i < draws)%nat -> In i (s_shown s)).
Proof using order_all target_all pick_in below_range.
  clear distance trimmed. unfold PpaModel.start. destruct (initialize_subsamples target (mkSession [] [] [] [] [] [])) as [[[b s1]|e]|] eqn:E; try discriminate.
  intros [= <- <-]. apply initialize_ok in E; [|constructor|constructor]. destruct E as (E1 & E2 & E3 & E4 & E5 & E6 & E7 & E8 & E9 & E10). cbn in *.
  assert (BS : forall i, In i (base_shown (mkSession [] [] [] [] [] [])) <-> (i < draws)%nat /\ outside i = true).
  { intro i. rewrite base_in. cbn. tauto. }
  split.
  - constructor; cbn [s_shown s_selected s_choices s_distances s_titles s_clicked displayed List.concat]; rewrite ?app_nil_r.
    + rewrite E6. apply update_nodup, update_nodup. constructor.
    + rewrite E6. apply Forall_forall. intros i Hi. apply update_in in Hi. rewrite BS in Hi. unfold in_range in E2. rewrite Forall_forall in E2. destruct Hi as [[Hi _]|Hi]; auto.
    + intros i Hi. rewrite E6. apply update_in. auto.
    + exact E1.
    + constructor; [exact E3|constructor].
    + intros i Hi Ho. rewrite E6. apply update_in. left. apply BS. auto.
    + rewrite E8. intros i [].
    + rewrite E8. intros i [].
    + intros t Ht. unfold displayed; cbn [List.concat]; rewrite ?app_nil_r. apply retitle_in in Ht. destruct Ht as [Ht|Ht]; [exact Ht|]. apply repeat_spec in Ht. discriminate.
    + intros i Hi. unfold displayed; cbn [List.concat]; rewrite ?app_nil_r. rewrite E6 in Hi. apply update_in in Hi. rewrite BS in Hi. tauto.
    + intros Ht i Hi. unfold displayed in Hi. cbn [List.concat] in Hi; rewrite ?app_nil_r in Hi. destruct (outside i) eqn:Eo; [|reflexivity]. exfalso.
      apply (E4 Ht i Hi), BS. split; [|exact Eo]. unfold in_range in E2. rewrite Forall_forall in E2. auto.
    + rewrite E7. intros i [].
  - intros Hb Ht i Hi. rewrite E6. apply update_in. left. apply E5; auto.
Qed.
Lemma click_inv target batches s a : inv target batches s -> inv target batches (click a s).
Proof using.
  intros []. unfold click. destruct (Nat.ltb a (List.length (s_titles s))); constructor; cbn; assumption.
Qed.
Definition fair_events (events : list event) : Prop := Forall (fun e => match e with Click _ => True | Carry sh => fair sh end) events.
Lemma play_inv target events : forall batches s batches' s', inv target batches s -> fair_events events -> play events batches s = Some (Ok (batches', s')) -> inv target batches' s'.
Proof using order_all target_all pick_in below_range.
  induction events as [|[a|sh] events IH]; intros batches s batches' s' I HF; cbn [PpaModel.play].
  - intros [= <- <-]. exact I.
  - inversion HF; subst. apply IH; [apply click_inv, I|assumption].
  - inversion HF; subst. destruct (carry_on sh s) as [[[b s1]|e]|] eqn:E; try discriminate. apply IH; [|assumption].
    eapply carry_on_step in E; [|exact I|assumption]. apply E.
Qed.
Lemma run_inv target events batches s : fair_events events -> run target events = Some (Ok (batches, s)) -> inv target batches s.
Proof using order_all target_all pick_in below_range.
  intros HF. unfold PpaModel.run. destruct (start target) as [[[b s1]|e]|] eqn:E; try discriminate. apply start_inv in E. apply play_inv; [apply E|exact HF].
Qed.
End Ppa.

(* ---------------- C42 ---------------- *)
(** What the theorems assume of the outside world: the tree orders all samples around each point, the random generator picks
    an element, and neighbour zero, if answered at all, is a sample or the mark for a missing one. *)
Record world := mkWorld {
  w_draws : nat; w_order : nat -> list nat; w_distance : nat -> nat -> R; w_target_order : list nat; w_target_distance : nat -> R;
  w_lo : nat -> R; w_hi : nat -> R; w_b0 : xr; w_b1 : xr; w_trimmed : list R -> xr; w_below : res nat; w_pick : list nat -> nat; w_grid : nat -> nat }.
Definition sane (w : world) : Prop :=
  (forall p, (p < w_draws w)%nat -> Permutation (w_order w p) (seq 0 (w_draws w))) /\ Permutation (w_target_order w) (seq 0 (w_draws w)) /\
  (forall l, l <> [] -> In (w_pick w l) l) /\ (forall v, w_below w = Ok v -> (v <= w_draws w)%nat).
Definition session_of (w : world) : bool -> list event -> option (res (list (list nat) * session)) :=
  run (w_draws w) (w_order w) (w_distance w) (w_target_order w) (w_target_distance w) (w_lo w) (w_hi w) (w_b0 w) (w_b1 w) (w_trimmed w) (w_below w) (w_pick w) (w_grid w).
Definition carry_of (w : world) : (list nat -> list nat) -> session -> option (res (list nat * session)) :=
  carry_on (w_draws w) (w_order w) (w_distance w) (w_target_order w) (w_target_distance w) (w_lo w) (w_hi w) (w_b0 w) (w_b1 w) (w_trimmed w) (w_below w) (w_pick w).
(** Inside the boundaries as a user reads it: no value of the sample below the lower or above the upper one. *)
Definition within (w : world) (i : nat) : Prop := ~ (xltb (Fin (w_lo w i)) (w_b0 w) = true) /\ ~ (xltb (w_b1 w) (Fin (w_hi w i)) = true).

Lemma outside_within w i : outside (w_lo w) (w_hi w) (w_b0 w) (w_b1 w) i = false <-> within w i.
Proof. unfold outside, within. rewrite orb_false_iff, !not_true_iff_false. tauto. Qed.

Lemma keep_titles draws order distance s batch s' : keep_sampling draws order distance s = Some (batch, s') -> s_titles s' = s_titles s.
Proof.
  unfold keep_sampling. destruct (s_choices s); [intros [= _ <-]; reflexivity|]. destruct (keep_batch _ _ _ _ _ _ _ _) as [[]|]; [|discriminate].
  intros [= _ <-]. reflexivity.
Qed.
Lemma initialize_titles draws order tord tdist lo hi b0 b1 below pick target s batch s' :
  initialize_subsamples draws order tord tdist lo hi b0 b1 below pick target s = Some (Ok (batch, s')) -> s_titles s' = s_titles s.
Proof.
  unfold initialize_subsamples. destruct (Nat.eqb _ _); [intros [= _ <-]; reflexivity|]. destruct target.
  - destruct (target_batch _ _ _ _ _ _ _) as [[]|]; [|discriminate]. intros [= _ <-]. reflexivity.
  - destruct (far_batch _ _ _ _ _ _ _) as [[|]|]; try discriminate. intros [= _ <-]. reflexivity.
Qed.
(** Whatever the user clicks and however often they ask for more: no sample is displayed twice, no batch has more than nine,
    every index is one of the draws, and without a target everything displayed is within the boundaries. *)
Theorem C42_never_shown_twice : forall w target events batches s, sane w -> fair_events events ->
  session_of w target events = Some (Ok (batches, s)) ->
  NoDup (List.concat batches) /\ Forall (fun b => (List.length b <= 9)%nat) batches /\
  (forall i, In i (List.concat batches) -> (i < w_draws w)%nat /\ (target = false -> within w i)).
Proof.
  intros w target events batches s (H1 & H2 & H3 & H4) HF E.
  assert (I := run_inv _ _ _ _ _ _ _ _ _ _ _ _ _ H1 H2 H3 H4 target events batches s HF E). destruct I.
  split; [assumption|]. split; [assumption|]. intros i Hi. split.
  - unfold in_range in i_shown_range0. rewrite Forall_forall in i_shown_range0. apply i_shown_range0, i_displayed_shown0, Hi.
  - intro Ht. apply outside_within. apply i_inside0; assumption.
Qed.
(** The titles, which are what a click refers to: each displayed sample is the title of one axis, in order, and there are as many axes as
    before. An axis beyond the batch keeps its title, unless something was clicked: then it has none. *)
Theorem C42_titles : forall w s sh batch s', carry_of w sh s = Some (Ok (batch, s')) -> batch <> [] ->
  List.length (s_titles s') = List.length (s_titles s) /\
  forall i, (i < List.length (s_titles s))%nat ->
    nth i (s_titles s') None = match nth_error batch i with
                               | Some sample => Some sample
                               | None => match s_clicked s with [] => nth i (s_titles s) None | _ => None end
                               end.
Proof.
  intros w s sh batch s' C NE.
  assert (R : forall titles : list (option nat), (List.length (retitle titles batch) = List.length titles)%nat /\
    forall i, (i < List.length titles)%nat -> nth i (retitle titles batch) None = match nth_error batch i with Some x => Some x | None => nth i titles None end).
  { intro titles. unfold retitle. split.
    - rewrite app_length, firstn_length, skipn_length, map_length. lia.
    - intros i Hi. destruct (nth_error batch i) as [x|] eqn:E.
      + assert (L : (i < List.length batch)%nat) by (apply nth_error_Some; congruence).
        rewrite app_nth1 by (rewrite firstn_length, map_length; lia).
        apply (map_nth_error Some) in E. rewrite <- (firstn_skipn (List.length titles) (map Some batch)) in E.
        rewrite nth_error_app1 in E by (rewrite firstn_length, map_length; lia).
        apply nth_error_nth with (d := None) in E. exact E.
      + apply nth_error_None in E. rewrite app_nth2 by (rewrite firstn_length, map_length; lia).
        rewrite firstn_length, map_length, Nat.min_r by lia.
        rewrite <- (firstn_skipn (List.length batch) titles) at 2. rewrite app_nth2 by (rewrite firstn_length; lia).
        rewrite firstn_length, Nat.min_l by lia. reflexivity. }
  unfold carry_of, carry_on in C.
  set (prep := match s_clicked s with [] => Ok s | _ => _ end) in C.
  assert (P : forall s1, prep = Ok s1 -> (List.length (s_titles s1) = List.length (s_titles s))%nat /\
    forall i, nth i (s_titles s1) None = match s_clicked s with [] => nth i (s_titles s) None | _ => None end).
  { intros s1. unfold prep. destruct (s_clicked s) as [|c cl]; [intros [= <-]; auto|]. destruct (titles_of _ _); cbn [bind]; [|discriminate].
    intros [= <-]. cbn [s_titles]. unfold collect_more_samples. destruct (Nat.ltb _ _); cbn [s_titles].
    all: (split; [apply map_length|]; intro i; change None with ((fun _ : option nat => @None nat) None); rewrite map_nth; reflexivity). }
  destruct prep as [s1|e]; [|discriminate]. destruct (P s1 eq_refl) as [P1 P2].
  destruct (keep_sampling _ _ _ s1) as [[kb s2]|] eqn:K; [|discriminate]. apply keep_titles in K.
  destruct (match kb with [] => _ | _ => _ end) as [[[bt s3]|]|] eqn:B; try discriminate. injection C as <- <-. cbn [s_titles].
  assert (T3 : s_titles s3 = s_titles s1).
  { rewrite <- K. destruct kb; [apply initialize_titles in B; exact B|injection B as _ <-; reflexivity]. }
  destruct bt as [|b0 bt0]; [congruence|]. destruct (R (s_titles s3)) as [R1 R2]. rewrite T3 in *. split; [congruence|].
  intros i Hi. rewrite R2 by congruence. rewrite P2. reflexivity.
Qed.
(** The accepted set. Asking for more keeps all that was accepted, accepts every clicked sample, and adds besides them only
    samples strictly inside the boundaries (when there are any); the new batch is within the boundaries and shows nothing
    that is accepted. *)
Theorem C42_accepted : forall w target events batches s sh batch s', sane w -> fair_events events -> fair sh ->
  session_of w target events = Some (Ok (batches, s)) -> carry_of w sh s = Some (Ok (batch, s')) ->
  (forall i, In i (s_selected s) -> In i (s_selected s')) /\
  (forall t, clicked_titles s t -> In t (s_selected s') /\ In t (List.concat batches)) /\
  (forall i, In i (s_selected s') -> In i (s_selected s) \/ clicked_titles s i \/
     ((i < w_draws w)%nat /\ (xisfinite (w_b0 w) || xisfinite (w_b1 w) = true -> xltb (w_b0 w) (Fin (w_lo w i)) = true /\ xltb (Fin (w_hi w i)) (w_b1 w) = true))) /\
  (forall i, In i batch -> ~ In i (s_selected s') /\ within w i).
Proof.
  intros w target events batches s sh batch s' (H1 & H2 & H3 & H4) HF HS E C.
  assert (I := run_inv _ _ _ _ _ _ _ _ _ _ _ _ _ H1 H2 H3 H4 target events batches s HF E).
  assert (S := carry_on_step _ _ _ _ _ _ _ _ _ _ _ _ H1 H2 H3 H4 target batches s sh batch s' I HS C).
  destruct S as (_ & A & B & D & F & _). split; [exact A|]. split; [|split].
  - intros t Ht. split; [apply B, Ht|]. destruct Ht as (c & _ & N). apply (i_titles _ _ _ _ _ _ _ _ I), (nth_title _ c), N.
  - intros i Hi. destruct (D i Hi) as [X|[X|X]]; auto.
  - intros i Hi. destruct (F i Hi) as [X Y]. split; [exact X|]. apply outside_within, Y.
Qed.
(** "We have seen all the samples" is said only when it is true: every sample has been displayed, is outside the boundaries
    or is accepted. *)
Theorem C42_exhaustion : forall w target events batches s sh s', sane w -> fair_events events -> fair sh ->
  session_of w target events = Some (Ok (batches, s)) -> carry_of w sh s = Some (Ok ([], s')) ->
  forall i, (i < w_draws w)%nat -> In i (List.concat batches) \/ ~ within w i \/ In i (s_selected s').
Proof.
  intros w target events batches s sh s' (H1 & H2 & H3 & H4) HF HS E C i Hi.
  assert (I := run_inv _ _ _ _ _ _ _ _ _ _ _ _ _ H1 H2 H3 H4 target events batches s HF E).
  assert (S := carry_on_step _ _ _ _ _ _ _ _ _ _ _ _ H1 H2 H3 H4 target batches s sh [] s' I HS C).
  destruct S as (I' & _ & _ & _ & _ & F). specialize (F eq_refl i Hi). destruct (i_seen _ _ _ _ _ _ _ _ I' i F) as [X|[X|X]]; auto.
  right. left. rewrite <- outside_within, X. discriminate.
Qed.
(** A request is always answered, provided the clicked axes show samples and the tree answers neighbour zero as missing. *)
Theorem C42_answers : forall w target events batches s sh, sane w -> fair_events events -> fair sh -> w_below w = Ok (w_draws w) ->
  session_of w target events = Some (Ok (batches, s)) ->
  (forall c, In c (s_clicked s) -> exists t, nth c (s_titles s) None = Some t) ->
  exists batch s', carry_of w sh s = Some (Ok (batch, s')).
Proof.
  intros w target events batches s sh (H1 & H2 & H3 & H4) HF HS HB E HC.
  assert (I := run_inv _ _ _ _ _ _ _ _ _ _ _ _ _ H1 H2 H3 H4 target events batches s HF E).
  unfold carry_of, carry_on. set (prep := match s_clicked s with [] => _ | _ => _ end).
  assert (P : exists s1, prep = Ok s1 /\ NoDup (s_shown s1) /\ in_range (w_draws w) (s_shown s1) /\ in_range (w_draws w) (s_choices s1)).
  { assert (RI : forall i, In i (List.concat batches) -> (i < w_draws w)%nat).
    { intros i Hi. pose proof (i_shown_range _ _ _ _ _ _ _ _ I) as R. unfold in_range in R. rewrite Forall_forall in R. apply R, (i_displayed_shown _ _ _ _ _ _ _ _ I), Hi. }
    assert (CR : in_range (w_draws w) (s_choices s)) by (apply Forall_forall; intros i Hi; apply RI, (i_choices _ _ _ _ _ _ _ _ I), Hi).
    unfold prep. clear prep. destruct (s_clicked s) as [|c0 cl] eqn:Ec.
    - exists s. split; [reflexivity|]. split; [apply (i_shown_nodup _ _ _ _ _ _ _ _ I)|]. split; [apply (i_shown_range _ _ _ _ _ _ _ _ I)|exact CR].
    - rewrite <- Ec in *. assert (X : exists ts, titles_of (s_titles s) (s_clicked s) = Ok ts).
      { clear - HC. induction (s_clicked s) as [|c l IH]; cbn; [eauto|]. destruct (HC c (or_introl eq_refl)) as (t & Et). rewrite Et.
        destruct IH as (ts & Ets); [intros; apply HC; right; assumption|]. rewrite Ets. cbn. eauto. }
      destruct X as (ts & Ets). rewrite Ets. cbn [bind]. eexists. split; [reflexivity|].
      assert (TR : forall t, In t ts -> (t < w_draws w)%nat).
      { intros t Ht. apply (titles_of_in _ _ _ Ets) in Ht. destruct Ht as (c & _ & N). apply RI, (i_titles _ _ _ _ _ _ _ _ I), (nth_title _ c), N. }
      destruct (collect_ok (w_draws w) (w_order w) (w_distance w) (w_lo w) (w_hi w) (w_b0 w) (w_b1 w) (w_trimmed w) H1
        (mkSession (s_shown s) (update (s_selected s) (sh (s_choices s ++ ts)%list)) (sh (s_choices s ++ ts)%list) (s_distances s) (s_titles s) (s_clicked s))) as (new & MO & Ecol).
      { cbn. apply Forall_forall. intros i Hi. apply update_in in Hi. destruct Hi as [Hi|Hi].
        - pose proof (i_shown_range _ _ _ _ _ _ _ _ I) as R. unfold in_range in R. rewrite Forall_forall in R. apply R, (i_sel_shown _ _ _ _ _ _ _ _ I), Hi.
        - apply (Permutation_in _ (HS _)) in Hi. apply in_app_iff in Hi. destruct Hi as [Hi|Hi]; [|auto]. unfold in_range in CR. rewrite Forall_forall in CR. auto. }
      rewrite Ecol. cbn [s_shown s_choices]. split; [apply update_nodup, (i_shown_nodup _ _ _ _ _ _ _ _ I)|]. split.
      + apply Forall_forall. intros i Hi. apply update_in in Hi. destruct Hi as [Hi|Hi]; [|apply MO, Hi].
        pose proof (i_shown_range _ _ _ _ _ _ _ _ I) as R. unfold in_range in R. rewrite Forall_forall in R. auto.
      + apply Forall_forall. intros i Hi. apply (Permutation_in _ (HS _)) in Hi. apply in_app_iff in Hi. destruct Hi as [Hi|Hi]; [|auto]. unfold in_range in CR. rewrite Forall_forall in CR. auto. }
  destruct P as (s1 & -> & ND & RS & RC).
  assert (K : exists kb s2, keep_sampling (w_draws w) (w_order w) (w_distance w) s1 = Some (kb, s2) /\ NoDup (s_shown s2) /\ in_range (w_draws w) (s_shown s2)).
  { unfold keep_sampling. destruct (s_choices s1) as [|new ch]; [exists [], s1; auto|]. inversion RC; subst.
    destruct (keep_batch_ok (w_draws w) (w_order w) (w_distance w) H1 9 (s_shown s1) [new] new (s_distances s1)) as (ex & d & A & B & C & D & F);
      [exact RS|constructor; [assumption|constructor]|constructor; [intros []|constructor]|discriminate|left; left; reflexivity|].
    rewrite A. eexists _, _. split; [reflexivity|]. cbn [tl app s_shown]. split; [apply update_nodup, ND|]. apply Forall_forall. intros i Hi. apply update_in in Hi.
    unfold in_range in *. rewrite Forall_forall in *. destruct Hi; auto. }
  destruct K as (kb & s2 & -> & ND2 & RS2). destruct kb as [|k0 kb]; [|eauto].
  assert (G : exists b s3, initialize_subsamples (w_draws w) (w_order w) (w_target_order w) (w_target_distance w) (w_lo w) (w_hi w) (w_b0 w) (w_b1 w) (w_below w) (w_pick w) false s2 = Some (Ok (b, s3))).
  { unfold initialize_subsamples. fold (base_shown (w_draws w) (w_lo w) (w_hi w) (w_b0 w) (w_b1 w) s2). set (bs := base_shown _ _ _ _ _ s2).
    destruct (Nat.eqb_spec (List.length bs) (w_draws w)) as [|Nf]; [eauto|].
    assert (RB : in_range (w_draws w) bs) by (apply base_range, RS2). assert (NB : NoDup bs) by (apply update_nodup, ND2).
    fold (unseen (w_draws w) bs).
    assert (NU : unseen (w_draws w) bs <> []).
    { intro X. apply Nf. apply Nat.le_antisymm.
      - apply Nat.le_trans with (List.length (seq 0 (w_draws w))); [|rewrite seq_length; apply Nat.le_refl]. apply NoDup_incl_length; [exact NB|]. intros i Hi. unfold in_range in RB. rewrite Forall_forall in RB. apply in_seq. specialize (RB _ Hi). lia.
      - apply Nat.le_trans with (List.length (seq 0 (w_draws w))); [rewrite seq_length; apply Nat.le_refl|]. apply NoDup_incl_length; [apply seq_NoDup|]. intros i Hi. destruct (in_dec Nat.eq_dec i bs); [assumption|]. exfalso.
        assert (Y : In i (unseen (w_draws w) bs)) by (apply unseen_in; apply in_seq in Hi; split; [lia|assumption]). rewrite X in Y. exact Y. }
    pose proof (H3 _ NU) as PN. set (new := w_pick w (unseen (w_draws w) bs)) in *. apply unseen_in in PN. destruct PN as [P1 P2].
    destruct (far_batch_total (w_draws w) (w_order w) (w_below w) H1 8 bs [new] new) as (out & A & _);
      [exact RB|constructor; [exact P1|constructor]|constructor; [intros []|constructor]|discriminate|intros x [<-|[]]; exact P2|left; left; reflexivity|left; exact HB|].
    rewrite A. eauto. }
  destruct G as (b & s3 & ->). eauto.
Qed.
(** A fresh batch is full: nine samples, whatever the tree says about neighbour zero, as long as nine are left; all that are
    left when the tree answers neighbour zero as missing. *)
Theorem C42_fresh_batch : forall w s, sane w -> NoDup (s_shown s) -> Forall (fun i => (i < w_draws w)%nat) (s_shown s) ->
  let left := filter (fun i => negb (mem i (s_shown s)) && negb (outside (w_lo w) (w_hi w) (w_b0 w) (w_b1 w) i)) (seq 0 (w_draws w)) in
  w_below w = Ok (w_draws w) \/ (9 <= List.length left)%nat ->
  exists batch s', initialize_subsamples (w_draws w) (w_order w) (w_target_order w) (w_target_distance w) (w_lo w) (w_hi w) (w_b0 w) (w_b1 w) (w_below w) (w_pick w) false s = Some (Ok (batch, s')) /\
    List.length batch = Nat.min 9 (List.length left).
Proof.
  intros w s (H1 & H2 & H3 & H4) ND RS left HB. unfold initialize_subsamples. fold (base_shown (w_draws w) (w_lo w) (w_hi w) (w_b0 w) (w_b1 w) s). set (bs := base_shown _ _ _ _ _ s).
  assert (RB : in_range (w_draws w) bs) by (apply base_range, RS). assert (NB : NoDup bs) by (apply update_nodup, ND).
  assert (EU : unseen (w_draws w) bs = left).
  { unfold unseen, left. apply filter_ext_in. intros i Hi. apply in_seq in Hi. destruct (mem i bs) eqn:E1.
    - apply mem_spec, base_in in E1. cbn. symmetry. apply andb_false_iff. rewrite !negb_false_iff. destruct E1 as [X|[_ X]]; [left; apply mem_spec, X|auto].
    - apply mem_false in E1. cbn. symmetry. apply andb_true_iff. rewrite !negb_true_iff. split.
      + apply mem_false. intro X. apply E1, base_in. auto.
      + destruct (outside _ _ _ _ i) eqn:Eo; [|reflexivity]. exfalso. apply E1, base_in. right. split; [lia|exact Eo]. }
  destruct (Nat.eqb_spec (List.length bs) (w_draws w)) as [Ef|Nf].
  - eexists _, _. split; [reflexivity|]. assert (L0 : left = []).
    { rewrite <- EU. destruct (unseen (w_draws w) bs) as [|i l] eqn:E; [reflexivity|]. exfalso. assert (X : In i (unseen (w_draws w) bs)) by (rewrite E; left; reflexivity).
      apply unseen_in in X. destruct X as [X1 X2]. apply X2, (full_shown (w_draws w)); assumption. }
    rewrite L0. reflexivity.
  - fold (unseen (w_draws w) bs).
    assert (NU : unseen (w_draws w) bs <> []).
    { intro X. apply Nf. apply Nat.le_antisymm.
      - apply Nat.le_trans with (List.length (seq 0 (w_draws w))); [|rewrite seq_length; apply Nat.le_refl]. apply NoDup_incl_length; [exact NB|]. intros i Hi. unfold in_range in RB. rewrite Forall_forall in RB. apply in_seq. specialize (RB _ Hi). lia.
      - apply Nat.le_trans with (List.length (seq 0 (w_draws w))); [rewrite seq_length; apply Nat.le_refl|]. apply NoDup_incl_length; [apply seq_NoDup|]. intros i Hi. destruct (in_dec Nat.eq_dec i bs); [assumption|]. exfalso.
        assert (Y : In i (unseen (w_draws w) bs)) by (apply unseen_in; apply in_seq in Hi; split; [lia|assumption]). rewrite X in Y. exact Y. }
    pose proof (H3 _ NU) as PN. set (new := w_pick w (unseen (w_draws w) bs)) in *. apply unseen_in in PN. destruct PN as [P1 P2].
    destruct (far_batch_total (w_draws w) (w_order w) (w_below w) H1 8 bs [new] new) as (out & A & B);
      [exact RB|constructor; [exact P1|constructor]|constructor; [intros []|constructor]|discriminate|intros x [<-|[]]; exact P2|left; left; reflexivity|rewrite EU; cbn; tauto|].
    rewrite A. eexists _, _. split; [reflexivity|]. rewrite B, EU. cbn [List.length].
    assert (1 <= List.length left)%nat by (rewrite <- EU; destruct (unseen (w_draws w) bs); [congruence|cbn; lia]). lia.
Qed.

(* ---------------- a concrete session ---------------- *)
(** [n] samples on a line, sample i having the single value i. *)
Definition line_order (n p : nat) : list nat := p :: filter (fun i => negb (Nat.eqb i p)) (seq 0 n).
Definition line_world (n : nat) (below : res nat) (b0 b1 : xr) : world :=
  mkWorld n (line_order n) (fun p v => Rabs (INR p - INR v)) (seq 0 n) (fun v => INR v) INR INR b0 b1 (fun _ => Fin 0) below (fun l => hd 0%nat l) (fun n => if Nat.leb n 4 then 4 else 9)%nat.
Lemma line_sane n below b0 b1 : (forall v, below = Ok v -> (v <= n)%nat) -> sane (line_world n below b0 b1).
Proof.
  intro HB. split; [|split; [apply Permutation_refl|split; [|exact HB]]].
  - cbn. intros p Hp. apply NoDup_Permutation.
    + constructor; [|apply NoDup_filter, seq_NoDup]. rewrite filter_In, Nat.eqb_refl. cbn. intros [_ X]. discriminate.
    + apply seq_NoDup.
    + intro x. cbn. rewrite filter_In, in_seq. split.
      * intros [<-|[X _]]; [split; lia|exact X].
      * intro X. destruct (Nat.eqb_spec x p) as [->|Ne]; [auto|]. right. split; [exact X|reflexivity].
  - cbn. intros [|x l] H; [congruence|left; reflexivity].
Qed.
Example C42_applies : exists s c b,
  session_of (line_world 12 (Ok 12%nat) NInf PInf) false [Carry (fun l => l); Carry (fun l => l)] = Some (Ok ([[]; b; c], s)) /\
  List.length c = 9%nat /\ List.length b = 3%nat.
Proof. eexists _, _, _. split; [vm_compute; reflexivity|split; reflexivity]. Qed.
(** Fewer than nine samples to show: the search runs down to neighbour zero. If the tree refuses, the session raises; if it
    answers some sample already in the batch, the session never ends. *)
Theorem C42_few_samples_refuted :
  session_of (line_world 3 (Err ValueError) NInf PInf) false [] = Some (Err ValueError) /\
  session_of (line_world 3 (Ok 0%nat) NInf PInf) false [] = None.
Proof. split; reflexivity. Qed.
(** An axis without a sample can be clicked; the next request then raises ValueError. *)
Theorem C42_empty_axis_refuted :
  session_of (line_world 3 (Ok 3%nat) NInf PInf) false [Click 3; Carry (fun l => l)] = Some (Err ValueError).
Proof. reflexivity. Qed.
(** With a target, samples outside the boundaries are displayed, and the sample nearest to the target is not. *)
Theorem C42_target_refuted : exists s batch,
  session_of (line_world 12 (Ok 12%nat) NInf (Fin 5)) true [] = Some (Ok ([batch], s)) /\
  In 7%nat batch /\ ~ within (line_world 12 (Ok 12%nat) NInf (Fin 5)) 7 /\
  hd_error (w_target_order (line_world 12 (Ok 12%nat) NInf (Fin 5))) = Some 0%nat /\ ~ In 0%nat batch.
Proof.
  assert (O : forall k : nat, outside INR INR NInf (Fin 5) k = Nat.ltb 5 k).
  { intro k. unfold outside. cbn [xltb orb]. assert (I5 : INR 5 = 5) by (rewrite INR_IZR_INZ; reflexivity). destruct (Rltb_spec 5 (INR k)) as [H|H]; destruct (Nat.ltb_spec 5 k) as [K|K]; try reflexivity; exfalso.
    - apply le_INR in K. lra.
    - apply lt_INR in K. lra. }
  assert (E : filter (outside INR INR NInf (Fin 5)) (seq 0 12) = [6; 7; 8; 9; 10; 11]%nat).
  { rewrite (filter_ext _ (Nat.ltb 5) O). reflexivity. }
  eexists _, [1; 2; 3; 4; 5; 6; 7; 8; 9]%nat. split; [|split; [|split; [|split]]].
  - unfold session_of, run, start, initialize_subsamples. cbn [line_world w_draws w_order w_distance w_target_order w_target_distance w_lo w_hi w_b0 w_b1 w_trimmed w_below w_pick w_grid s_shown]. rewrite E. reflexivity.
  - cbn. tauto.
  - rewrite <- outside_within. cbn [line_world w_lo w_hi w_b0 w_b1]. rewrite O. discriminate.
  - reflexivity.
  - cbn. intuition discriminate.
Qed.

(** Clicks before Carry on: an axis is selected exactly if the figure has it and it was clicked an odd number of times; nothing else changes. *)
Theorem C42_clicks : forall s l, s_clicked s = [] ->
  let s' := fold_left (fun s a => click a s) l s in
  (forall a, In a (s_clicked s') <-> (a < List.length (s_titles s))%nat /\ Nat.Odd (count_occ Nat.eq_dec l a)) /\
  NoDup (s_clicked s') /\
  s_shown s' = s_shown s /\ s_selected s' = s_selected s /\ s_choices s' = s_choices s /\ s_distances s' = s_distances s /\ s_titles s' = s_titles s.
Proof.
  intros s l E. cbv zeta. induction l as [|b l IH] using rev_ind.
  - cbn [fold_left]. rewrite E. split; [|split; [constructor | repeat split]]. intro a. split; [intros [] | intros [_ [k K]]; cbn in K; lia].
  - rewrite fold_left_app. cbn [fold_left]. set (s' := fold_left _ l s) in *. destruct IH as (IH & N & I1 & I2 & I3 & I4 & I5).
    assert (C : forall a, count_occ Nat.eq_dec (l ++ [b]) a = (count_occ Nat.eq_dec l a + if Nat.eq_dec b a then 1 else 0)%nat).
    { intro a. rewrite count_occ_app. cbn [count_occ]. reflexivity. }
    unfold click. destruct (Nat.ltb_spec b (List.length (s_titles s'))) as [B|B]; rewrite I5 in B.
    + cbn [s_clicked s_shown s_selected s_choices s_distances s_titles]. split; [|split; [|repeat split; assumption]].
      * intro a. rewrite C. pose proof (IH a) as Ia. pose proof (IH b) as Ib. destruct (mem b (s_clicked s')) eqn:M.
        -- assert (Mb : In b (s_clicked s')) by (apply mem_spec; exact M). rewrite filter_In. destruct (Nat.eqb_spec a b) as [->|D]; cbn [negb].
           ++ split; [intros [_ X]; discriminate|]. intros [_ O]. destruct (Nat.eq_dec b b); [|congruence]. apply Ib in Mb as [_ Mb].
              destruct O as [x O], Mb as [y Y]. lia.
           ++ destruct (Nat.eq_dec b a); [congruence|]. rewrite Nat.add_0_r. tauto.
        -- assert (Mb : ~ In b (s_clicked s')) by (intro X; apply mem_spec in X; congruence). rewrite in_app_iff. cbn [In]. destruct (Nat.eq_dec b a) as [<-|D].
           ++ split; [intros _; split; [exact B|] | auto]. destruct (Nat.Even_or_Odd (count_occ Nat.eq_dec l b)) as [[x X]|O]; [exists x; lia | exfalso; apply Mb, Ib; auto].
           ++ rewrite Nat.add_0_r. intuition.
      * destruct (mem b (s_clicked s')) eqn:M; [apply NoDup_filter; exact N|]. apply NoDup_rev in N. rewrite <- (rev_involutive (s_clicked s' ++ [b])). apply NoDup_rev. rewrite rev_app_distr. cbn [rev app]. constructor; [|exact N]. intro X. apply in_rev in X. apply mem_spec in X. congruence.
    + split; [|split; [exact N | repeat split; assumption]]. intro a. rewrite C, IH. destruct (Nat.eq_dec b a) as [<-|D]; [|rewrite Nat.add_0_r; reflexivity].
      split; intros [X _]; lia.
Qed.
Example C42_clicks_case : s_clicked (fold_left (fun s a => click a s) [1; 0; 1; 5; 2]%nat (mkSession [] [] [] [] [Some 7; Some 8; Some 9]%nat [])) = [0; 2]%nat.
Proof. reflexivity. Qed.
Print Assumptions C42_never_shown_twice.
Print Assumptions C42_accepted.
Print Assumptions C42_titles.
Print Assumptions C42_exhaustion.
Print Assumptions C42_answers.
Print Assumptions C42_fresh_batch.
Print Assumptions C42_clicks.
