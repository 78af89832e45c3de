From Coq Require Import List Bool Ascii String ZArith QArith Permutation Lia.
From Verif Require Import Base RcModel RcSpec.
Import ListNotations.
Open Scope string_scope.

(* ---------- maps ---------- *)
Lemma get_put_same k v s : get k (put k v s) = Some v.
Proof.
  induction s as [|[k' v'] r IH]; simpl.
  - rewrite String.eqb_refl; reflexivity.
  - destruct (String.eqb k k') eqn:E; simpl.
    + rewrite String.eqb_refl; reflexivity.
    + rewrite E; exact IH.
Qed.

Lemma get_put_other k k' v s : k <> k' -> get k' (put k v s) = get k' s.
Proof.
  intro H. induction s as [|[k2 v2] r IH]; simpl.
  - destruct (String.eqb k' k) eqn:E; [apply String.eqb_eq in E; congruence|reflexivity].
  - destruct (String.eqb k k2) eqn:E; simpl.
    + apply String.eqb_eq in E; subst k2.
      destruct (String.eqb k' k) eqn:E2; [apply String.eqb_eq in E2; congruence|reflexivity].
    + destruct (String.eqb k' k2); [reflexivity|exact IH].
Qed.

Lemma get_In k s : (exists v, get k s = Some v) <-> In k (map fst s).
Proof.
  induction s as [|[k' v'] r IH]; simpl.
  - split; [intros [v H]; discriminate|tauto].
  - destruct (String.eqb k k') eqn:E.
    + apply String.eqb_eq in E; subst. split; [auto|intros _; eauto].
    + apply String.eqb_neq in E. rewrite IH. split; [auto|intros [H|H]; [congruence|auto]].
Qed.

Lemma put_keys k v s : In k (map fst s) -> map fst (put k v s) = map fst s.
Proof.
  induction s as [|[k' v'] r IH]; simpl; [tauto|].
  intros H. destruct (String.eqb k k') eqn:E; simpl.
  - apply String.eqb_eq in E; subst; reflexivity.
  - apply String.eqb_neq in E. rewrite IH; [reflexivity|]. destruct H; [congruence|auto].
Qed.

Lemma put_keys_new k v s : ~ In k (map fst s) -> map fst (put k v s) = (map fst s ++ [k])%list.
Proof.
  induction s as [|[k' v'] r IH]; simpl; [reflexivity|].
  intros H. destruct (String.eqb k k') eqn:E; simpl.
  - apply String.eqb_eq in E; subst; tauto.
  - rewrite IH; [reflexivity|tauto].
Qed.

Section P.
Variable fos : string -> option pyfloat.
Variable str : pyval -> string.
Notation validator := (validator fos str).
Notation setitem := (setitem fos str).
Notation update := (update fos str).
Notation exec := (exec fos str).

(* ---------- validators ---------- *)
Lemma validator_known k : In k known_keys <-> exists f, validator k = Some f.
Proof.
  unfold RcModel.validator, known_keys; simpl.
  destruct (String.eqb k "stats.ci_kind") eqn:E1;
    [apply String.eqb_eq in E1; split; eauto|].
  destruct (String.eqb k "stats.ci_prob") eqn:E2;
    [apply String.eqb_eq in E2; split; eauto|].
  destruct (String.eqb k "plots.show_plot") eqn:E3;
    [apply String.eqb_eq in E3; split; eauto|].
  apply String.eqb_neq in E1; apply String.eqb_neq in E2; apply String.eqb_neq in E3.
  split; [intuition congruence|intros [f H]; discriminate].
Qed.

Lemma validate_ci_kind_out v c : validate_ci_kind str v = Ok c -> c = VStr "eti" \/ c = VStr "hdi".
Proof.
  unfold validate_ci_kind.
  destruct (String.eqb (lower (to_str str v)) "eti") eqn:E1; simpl.
  - intro H; injection H as <-. apply String.eqb_eq in E1; rewrite E1; auto.
  - destruct (String.eqb (lower (to_str str v)) "hdi") eqn:E2; simpl; [|discriminate].
    intro H; injection H as <-. apply String.eqb_eq in E2; rewrite E2; auto.
Qed.

Lemma unit_dec f : (flt_0 f || fgt_1 f)%bool = false <-> not_outside_unit f.
Proof.
  destruct f; simpl; try intuition discriminate.
  rewrite orb_false_iff, !negb_false_iff, !Qle_bool_iff. tauto.
Qed.

Lemma validate_probability_out v c :
  validate_probability fos v = Ok c -> exists f, c = VFloat f /\ not_outside_unit f.
Proof.
  unfold validate_probability, bind.
  destruct (validate_float fos v) as [f|e]; [|discriminate].
  destruct (flt_0 f || fgt_1 f)%bool eqn:E; [discriminate|].
  intro H; injection H as <-. exists f; split; [reflexivity|]. apply unit_dec; exact E.
Qed.

Lemma validate_boolean_out v c : validate_boolean v = Ok c -> exists b, c = VBool b.
Proof.
  unfold validate_boolean, bind.
  destruct (in_bool_set _) as [m|e]; [|discriminate].
  destruct m; simpl; [|discriminate]. intro H; injection H as <-; eauto.
Qed.

Lemma validator_out k f v c : validator k = Some f -> f v = Ok c -> valid_setting k c.
Proof.
  unfold RcModel.validator, valid_setting.
  destruct (String.eqb k "stats.ci_kind") eqn:E1.
  { apply String.eqb_eq in E1. intro H; injection H as <-. intro H.
    left; split; [exact E1|]. eapply validate_ci_kind_out; eauto. }
  destruct (String.eqb k "stats.ci_prob") eqn:E2.
  { apply String.eqb_eq in E2. intro H; injection H as <-. intro H.
    right; left; split; [exact E2|]. eapply validate_probability_out; eauto. }
  destruct (String.eqb k "plots.show_plot") eqn:E3; [|discriminate].
  apply String.eqb_eq in E3. intro H; injection H as <-. intro H.
  right; right; split; [exact E3|]. eapply validate_boolean_out; eauto.
Qed.

(** Validators leave valid values alone. *)
Lemma validator_fix k v : valid_setting k v -> exists f, validator k = Some f /\ f v = Ok v.
Proof.
  intros [[-> [->| ->]]|[[-> [f [-> Hf]]]|[-> [b ->]]]]; unfold RcModel.validator; simpl.
  - eexists; split; reflexivity.
  - eexists; split; reflexivity.
  - eexists; split; [reflexivity|]. unfold validate_probability; simpl.
    apply unit_dec in Hf. rewrite Hf. reflexivity.
  - eexists; split; [reflexivity|]. destruct b; reflexivity.
Qed.

(* ---------- setitem ---------- *)
Lemma setitem_err k v s s' e : setitem k v s = (s', Some e) -> s' = s.
Proof.
  unfold RcModel.setitem. destruct (validator k) as [f|]; [|congruence].
  destruct (f v); congruence.
Qed.

Lemma setitem_ok k v s s' :
  setitem k v s = (s', None) ->
  exists f c, validator k = Some f /\ f v = Ok c /\ s' = put k c s.
Proof.
  unfold RcModel.setitem. destruct (validator k) as [f|]; [|discriminate].
  destruct (f v) as [c|e] eqn:E; [|discriminate]. intro H; injection H as <-. eauto.
Qed.

Lemma setitem_valid k v s : valid_setting k v -> setitem k v s = (put k v s, None).
Proof.
  intro H. destruct (validator_fix k v H) as [f [E1 E2]].
  unfold RcModel.setitem. rewrite E1, E2. reflexivity.
Qed.

Lemma sound_put k c s : sound s -> valid_setting k c -> In k known_keys -> sound (put k c s).
Proof.
  intros [ND [K V]] Hv Hk.
  assert (Hin : In k (map fst s)) by (apply get_In; apply K; exact Hk).
  split; [rewrite put_keys; auto|]. split.
  - intro k'. rewrite K. split; intros [v H].
    + destruct (String.string_dec k k') as [->|N].
      * exists c; apply get_put_same.
      * exists v; rewrite get_put_other; auto.
    + destruct (String.string_dec k k') as [->|N].
      * apply K; exact Hk.
      * rewrite get_put_other in H; eauto.
  - intros k' v H. destruct (String.string_dec k k') as [->|N].
    + rewrite get_put_same in H. injection H as <-. exact Hv.
    + rewrite get_put_other in H; auto.
Qed.

Lemma sound_setitem k v s : sound s -> sound (fst (setitem k v s)).
Proof.
  intro H. destruct (setitem k v s) as [s' [e|]] eqn:E; simpl.
  - rewrite (setitem_err _ _ _ _ _ E). exact H.
  - destruct (setitem_ok _ _ _ _ E) as [f [c [Ef [Ec ->]]]].
    apply sound_put; auto.
    + eapply validator_out; eauto.
    + apply validator_known; eauto.
Qed.

Lemma sound_update l s : sound s -> sound (fst (update l s)).
Proof.
  revert s; induction l as [|[k v] r IH]; intros s H; simpl; [exact H|].
  pose proof (sound_setitem k v s H) as H1.
  destruct (setitem k v s) as [s' [e|]]; simpl in *; auto.
Qed.

Lemma sound_ctx_init rc f s : sound s -> sound (fst (ctx_init fos str rc f s)).
Proof.
  intro H. unfold ctx_init. destruct f as [fl|]; [|apply sound_update; exact H].
  destruct (read_rcfile fos str fl) as [fs|e]; [|exact H].
  pose proof (sound_update (items fs) s H) as H1.
  destruct (update (items fs) s) as [s' [e|]]; simpl in *; auto. apply sound_update; exact H1.
Qed.

Lemma sound_exec p s : sound s -> sound (fst (exec p s)).
Proof.
  revert s; induction p; intros s H; simpl.
  - exact H.
  - apply sound_setitem; exact H.
  - apply sound_update; exact H.
  - exact H.
  - exact H.
  - specialize (IHp1 s H). destruct (exec p1 s) as [s' [e|]]; simpl in *; auto.
  - specialize (IHp1 s H). destruct (exec p1 s) as [s' [e|]]; simpl in *; auto.
  - pose proof (sound_ctx_init rc f s H) as H1.
    destruct (ctx_init fos str rc f s) as [s1 [e|]]; simpl in *; [exact H1|].
    specialize (IHp s1 H1). destruct (exec p s1) as [s2 e2]; simpl in *.
    pose proof (sound_update (copy s) s2 IHp) as H3.
    destruct (update (copy s) s2) as [s3 [e3|]]; simpl in *; exact H3.
Qed.

(* ---------- updating with valid values ---------- *)
Definition all_valid (l : list (string * pyval)) := forall k v, In (k, v) l -> valid_setting k v.

Lemma update_valid l s :
  all_valid l -> update l s = (fold_left (fun s kv => put (fst kv) (snd kv) s) l s, None).
Proof.
  revert s; induction l as [|[k v] r IH]; intros s H; simpl; [reflexivity|].
  rewrite setitem_valid by (apply H; left; reflexivity). simpl. apply IH.
  intros k' v' Hin; apply H; right; exact Hin.
Qed.

Lemma get_fold_put l s k :
  NoDup (map fst l) ->
  get k (fold_left (fun s kv => put (fst kv) (snd kv) s) l s)
  = match get k l with Some v => Some v | None => get k s end.
Proof.
  revert s; induction l as [|[k' v'] r IH]; intros s ND; simpl; [reflexivity|].
  inversion ND; subst. rewrite IH by assumption.
  destruct (String.eqb k k') eqn:E.
  - apply String.eqb_eq in E; subst.
    destruct (get k' r) eqn:G.
    + exfalso. apply H1. apply get_In. eauto.
    + rewrite get_put_same; reflexivity.
  - apply String.eqb_neq in E. rewrite get_put_other by congruence. reflexivity.
Qed.

Lemma In_get k v s : NoDup (map fst s) -> In (k, v) s -> get k s = Some v.
Proof.
  induction s as [|[k' v'] r IH]; simpl; intros ND H; [tauto|].
  inversion ND; subst. destruct H as [H|H].
  - injection H as -> ->. rewrite String.eqb_refl; reflexivity.
  - destruct (String.eqb k k') eqn:E.
    + apply String.eqb_eq in E; subst. exfalso; apply H2.
      change k' with (fst (k', v)). apply in_map; exact H.
    + apply IH; auto.
Qed.

Lemma get_In_pair k v s : get k s = Some v -> In (k, v) s.
Proof.
  induction s as [|[k' v'] r IH]; simpl; [discriminate|].
  destruct (String.eqb k k') eqn:E.
  - apply String.eqb_eq in E; subst. intro H; injection H as <-; auto.
  - auto.
Qed.

Lemma sound_all_valid s : sound s -> all_valid s.
Proof. intros [ND [K V]] k v H. apply V. apply In_get; auto. Qed.

Lemma restore s s2 : sound s -> sound s2 -> 
  exists s3, update (copy s) s2 = (s3, None) /\ same_settings s s3.
Proof.
  intros H H2. unfold copy. rewrite update_valid by (apply sound_all_valid; exact H).
  eexists; split; [reflexivity|]. intro k. destruct H as [ND [K V]].
  rewrite get_fold_put by exact ND.
  destruct (get k s) eqn:G; [reflexivity|].
  destruct (get k s2) eqn:G2; [|reflexivity].
  destruct H2 as [_ [K2 _]]. assert (In k known_keys) by (apply K2; eauto).
  apply K in H. destruct H; congruence.
Qed.

Lemma with_restores rc f body s :
  sound s ->
  snd (ctx_init fos str rc f s) = None ->
  same_settings s (fst (exec (With rc f body) s)) /\
  snd (exec (With rc f body) s) = snd (exec body (fst (ctx_init fos str rc f s))).
Proof.
  intros H Hin. simpl. pose proof (sound_ctx_init rc f s H) as H1.
  destruct (ctx_init fos str rc f s) as [s1 e1]; simpl in *; subst e1.
  pose proof (sound_exec body s1 H1) as H2.
  destruct (exec body s1) as [s2 e2]; simpl in *.
  destruct (restore s s2 H H2) as [s3 [E S]]. rewrite E. simpl; auto.
Qed.

Lemma same_refl s : same_settings s s. Proof. intro; reflexivity. Qed.
Lemma same_trans a b c : same_settings a b -> same_settings b c -> same_settings a c.
Proof. intros H1 H2 k; rewrite H1; apply H2. Qed.

Lemma scoped_restores p s : scoped fos str p -> sound s -> same_settings s (fst (exec p s)).
Proof.
  intros Sc; revert s; induction Sc; intros s Hs.
  - apply same_refl.
  - apply same_refl.
  - apply same_refl.
  - simpl. pose proof (sound_exec p s Hs) as H1. specialize (IHSc1 s Hs).
    destruct (exec p s) as [s' [e|]]; simpl in *; auto.
    eapply same_trans; [exact IHSc1|]. auto.
  - simpl. pose proof (sound_exec p s Hs) as H1. specialize (IHSc1 s Hs).
    destruct (exec p s) as [s' [e|]]; simpl in *; auto.
    eapply same_trans; [exact IHSc1|]. auto.
  - apply with_restores; auto.
Qed.

(** A failing update: every key reads its old value or the validated value of one of the items. *)
Lemma update_trace l s k :
  get k (fst (update l s)) = get k s \/
  exists v f c, In (k, v) l /\ validator k = Some f /\ f v = Ok c /\ get k (fst (update l s)) = Some c.
Proof.
  revert s; induction l as [|[k' v'] r IH]; intros s; simpl; [auto|].
  destruct (setitem k' v' s) as [s' [e|]] eqn:E; simpl.
  - rewrite (setitem_err _ _ _ _ _ E); auto.
  - destruct (setitem_ok _ _ _ _ E) as [f [c [Ef [Ec ->]]]].
    destruct (IH (put k' c s)) as [H|(v & f' & c' & Hin & H1 & H2 & H3)].
    + rewrite H. destruct (String.string_dec k' k) as [->|N].
      * right. exists v', f, c. rewrite get_put_same. auto.
      * left. apply get_put_other; exact N.
    + right. exists v, f', c'. auto.
Qed.

Lemma defaults_sound : sound (defaults fos str).
Proof.
  unfold defaults, default_items. rewrite update_valid.
  - simpl. split; [|split].
    + simpl. repeat constructor; simpl; intuition congruence.
    + intro k. simpl. unfold known_keys. simpl.
      repeat match goal with |- context [String.eqb k ?x] =>
        let E := fresh in destruct (String.eqb k x) eqn:E;
        [apply String.eqb_eq in E; subst; intuition eauto|apply String.eqb_neq in E] end.
      split; [intuition congruence|intros [v Hv]; discriminate].
    + intros k v. simpl. unfold valid_setting.
      repeat match goal with |- context [String.eqb k ?x] =>
        let E := fresh in destruct (String.eqb k x) eqn:E;
        [apply String.eqb_eq in E; subst; let H := fresh in intro H; injection H as <-|] end.
      * auto.
      * right; left; split; [reflexivity|]. eexists; split; [reflexivity|]. simpl; split; discriminate.
      * right; right; split; [reflexivity|]. eauto.
      * discriminate.
  - intros k v. simpl. unfold valid_setting.
    intros [H|[H|[H|[]]]]; injection H as <- <-.
    + auto.
    + right; left; split; [reflexivity|]. eexists; split; [reflexivity|]. simpl; split; discriminate.
    + right; right; eauto.
Qed.

Lemma rc_params_sound f s : rc_params fos str f = Ok s -> sound s.
Proof.
  unfold rc_params. destruct f as [fl|].
  - unfold bind. destruct (read_rcfile fos str fl) as [fd|]; [|discriminate].
    pose proof (sound_update (items fd) _ defaults_sound) as H.
    destruct (update (items fd) (defaults fos str)) as [s' [e|]]; [discriminate|].
    intro E; injection E as <-; exact H.
  - intro E; injection E as <-; apply defaults_sound.
Qed.

(* ---------- sorted iteration ---------- *)
Lemma str_leb_total a b : str_leb a b = true \/ str_leb b a = true.
Proof.
  revert b; induction a as [|c a IH]; intros [|d b]; simpl; auto.
  destruct (Nat.ltb (nat_of_ascii c) (nat_of_ascii d)) eqn:E1; [auto|].
  destruct (Nat.ltb (nat_of_ascii d) (nat_of_ascii c)) eqn:E2; auto.
Qed.

Lemma ins_perm k l : Permutation (ins k l) (k :: l).
Proof.
  induction l as [|h t IH]; simpl; [apply Permutation_refl|].
  destruct (str_leb k h); [apply Permutation_refl|].
  eapply Permutation_trans; [apply perm_skip; exact IH|apply perm_swap].
Qed.

Lemma iter_keys_perm s : Permutation (iter_keys s) (map fst s).
Proof.
  unfold iter_keys. induction (map fst s) as [|k l IH]; simpl; [constructor|].
  eapply Permutation_trans; [apply ins_perm|]. apply perm_skip; exact IH.
Qed.

Fixpoint chain (l : list string) : Prop :=
  match l with
  | a :: ((b :: _) as t) => str_leb a b = true /\ chain t
  | _ => True
  end.

Lemma ins_chain k l : chain l -> chain (ins k l).
Proof.
  induction l as [|h t IH]; simpl; [auto|].
  intro H. destruct (str_leb k h) eqn:E; [simpl; auto|].
  assert (E' : str_leb h k = true) by (destruct (str_leb_total k h); congruence).
  destruct t as [|h2 t2]; simpl in *; [auto|].
  destruct H as [H1 H2]. specialize (IH H2). destruct (str_leb k h2); auto.
Qed.

Lemma iter_keys_chain s : chain (iter_keys s).
Proof.
  unfold iter_keys. induction (map fst s) as [|k l IH]; simpl; [exact I|]. apply ins_chain; exact IH.
Qed.

(** Reading back a sound object through [items] loses nothing. *)
Lemma items_In s k v : In (k, v) (items s) <-> get k s = Some v.
Proof.
  unfold items. rewrite in_flat_map. split.
  - intros [k' [Hin H]]. destruct (get k' s) eqn:G; [|destruct H].
    destruct H as [H|[]]. injection H as <- <-. exact G.
  - intro H. exists k. split.
    + eapply Permutation_in; [apply Permutation_sym, iter_keys_perm|]. apply get_In; eauto.
    + rewrite H; left; reflexivity.
Qed.

Lemma items_keys s : NoDup (map fst s) -> NoDup (map fst (items s)).
Proof.
  intro ND.
  assert (map fst (items s) = iter_keys s) as ->.
  { unfold items.
    assert (forall l, (forall k, In k l -> In k (map fst s)) ->
      map fst (flat_map (fun k => match get k s with Some v => [(k, v)] | None => [] end) l) = l) as H.
    { induction l as [|k l IH]; intro Hl; simpl; [reflexivity|].
      destruct (get k s) eqn:G.
      - simpl. f_equal. apply IH. intros; apply Hl; right; auto.
      - exfalso. assert (In k (map fst s)) as Hk by (apply Hl; left; reflexivity).
        apply get_In in Hk. destruct Hk; congruence. }
    apply H. intros k Hk. eapply Permutation_in; [apply iter_keys_perm|exact Hk]. }
  eapply Permutation_NoDup; [apply Permutation_sym, iter_keys_perm|exact ND].
Qed.

Lemma get_filter_items p s k :
  NoDup (map fst s) ->
  get k (filter (fun kv => p (fst kv)) (items s)) = if p k then get k s else None.
Proof.
  intro ND.
  destruct (get k (filter (fun kv => p (fst kv)) (items s))) as [v|] eqn:G.
  - apply get_In_pair, filter_In in G. simpl in G. destruct G as [G1 G2].
    rewrite G2. symmetry. apply items_In; exact G1.
  - destruct (p k) eqn:E; [|reflexivity].
    destruct (get k s) as [v|] eqn:G2; [|reflexivity].
    exfalso. apply items_In in G2.
    assert (In (k, v) (filter (fun kv => p (fst kv)) (items s))) as Hin
      by (apply filter_In; simpl; auto).
    assert (In k (map fst (filter (fun kv => p (fst kv)) (items s)))) as Hk
      by (change k with (fst (k, v)); apply in_map; exact Hin).
    apply get_In in Hk. destruct Hk; congruence.
Qed.

Lemma NoDup_filter_keys p (l : list (string * pyval)) :
  NoDup (map fst l) -> NoDup (map fst (filter p l)).
Proof.
  induction l as [|a l IH]; simpl; intro H; [constructor|].
  inversion H; subst. destruct (p a); simpl; auto. constructor; auto.
  intro Hin. apply H2. apply in_map_iff in Hin. destruct Hin as [x [E Hx]].
  apply filter_In in Hx. rewrite <- E. apply in_map; tauto.
Qed.

Lemma find_all_spec p s :
  sound s ->
  snd (find_all fos str p s) = None /\
  forall k, get k (fst (find_all fos str p s)) = if p k then get k s else None.
Proof.
  intro H. unfold find_all. pose proof H as [ND [K V]].
  rewrite update_valid.
  - simpl. split; [reflexivity|]. intro k. rewrite get_fold_put.
    + rewrite get_filter_items by exact ND. simpl. destruct (p k); [|reflexivity].
      destruct (get k s); reflexivity.
    + apply NoDup_filter_keys, items_keys, ND.
  - intros k v Hin. apply filter_In in Hin. destruct Hin as [Hin _].
    apply V. apply items_In; exact Hin.
Qed.

(* ---------- strings ---------- *)
Lemma split1_free c s : free_of c s -> split1 c s = None.
Proof.
  induction s as [|d r IH]; simpl; [reflexivity|]. intros [N H].
  destruct (Ascii.eqb d c) eqn:E; [apply Ascii.eqb_eq in E; congruence|].
  rewrite (IH H). reflexivity.
Qed.

Lemma split1_app c a b : free_of c a -> split1 c (a ++ String c b) = Some (a, b).
Proof.
  induction a as [|d r IH]; simpl.
  - intros _. rewrite Ascii.eqb_refl. reflexivity.
  - intros [N H]. destruct (Ascii.eqb d c) eqn:E; [apply Ascii.eqb_eq in E; congruence|].
    rewrite (IH H). reflexivity.
Qed.

Lemma lstrip_idem s : lstrip (lstrip s) = lstrip s.
Proof.
  induction s as [|c r IH]; simpl; [reflexivity|].
  destruct (is_space c) eqn:E; [exact IH|]. simpl. rewrite E. reflexivity.
Qed.

Lemma rstrip_idem s : rstrip (rstrip s) = rstrip s.
Proof.
  induction s as [|c r IH]; simpl; [reflexivity|].
  destruct (rstrip r) as [|d r'] eqn:E.
  - destruct (is_space c) eqn:E2; [reflexivity|]. simpl. rewrite E2. reflexivity.
  - change (rstrip (String c (String d r')))
      with (match rstrip (String d r') with
            | EmptyString => if is_space c then EmptyString else String c EmptyString
            | r'' => String c r'' end).
    rewrite IH. reflexivity.
Qed.

Lemma strip_app_space_r s sp : all_space sp -> strip (s ++ sp) = strip s.
Proof.
  intro H. unfold strip. f_equal.
  assert (Hsp : rstrip sp = EmptyString).
  { induction sp as [|c r IH]; simpl; [reflexivity|]. destruct H as [H1 H2].
    rewrite (IH H2), H1. reflexivity. }
  induction s as [|c r IH]; simpl; [exact Hsp|]. rewrite IH. reflexivity.
Qed.

Lemma lstrip_rstrip_comm s : rstrip (lstrip s) = lstrip (rstrip s).
Proof.
  induction s as [|c r IH]; simpl; [reflexivity|].
  destruct (is_space c) eqn:E.
  - rewrite IH. destruct (rstrip r) as [|d r'] eqn:E2; simpl; [reflexivity|]. rewrite E. reflexivity.
  - simpl. destruct (rstrip r) as [|d r'] eqn:E2; simpl; rewrite E; reflexivity.
Qed.

Lemma strip_app_space_l s sp : all_space sp -> strip (sp ++ s) = strip s.
Proof.
  intro H. unfold strip. rewrite <- !lstrip_rstrip_comm. f_equal.
  induction sp as [|c r IH]; simpl; [reflexivity|]. destruct H as [H1 H2].
  rewrite H1. auto.
Qed.

Lemma strip_idem s : strip (strip s) = strip s.
Proof.
  unfold strip. rewrite <- (lstrip_rstrip_comm (lstrip (rstrip s))), lstrip_idem.
  rewrite lstrip_rstrip_comm, rstrip_idem. reflexivity.
Qed.

Lemma app_assoc_s (a b c : string) : (a ++ b) ++ c = a ++ (b ++ c).
Proof. induction a; simpl; congruence. Qed.

Lemma free_of_app c a b : free_of c (a ++ b) <-> free_of c a /\ free_of c b.
Proof. induction a; simpl; tauto. Qed.

Lemma lstrip_app_nonempty a b : lstrip a = a -> a <> "" -> lstrip (a ++ b) = a ++ b.
Proof.
  destruct a as [|c r]; [congruence|]. simpl. intros H _.
  destruct (is_space c) eqn:E; [|reflexivity].
  exfalso. assert (forall s, String.length (lstrip s) <= String.length s)%nat as L.
  { induction s as [|d s IH]; simpl; [lia|]. destruct (is_space d); simpl; lia. }
  pose proof (L r) as Hr. rewrite H in Hr. simpl in Hr. lia.
Qed.

Lemma rstrip_app_nonempty a b : rstrip b = b -> b <> "" -> rstrip (a ++ b) = a ++ b.
Proof.
  intros H N. induction a as [|c r IH]; simpl; [exact H|]. rewrite IH.
  destruct (r ++ b) eqn:E; [|reflexivity].
  destruct r; simpl in E; [congruence|discriminate].
Qed.

Lemma trimmed_parts s : trimmed s -> lstrip s = s /\ rstrip s = s.
Proof.
  unfold trimmed, strip. intro H. split.
  - rewrite <- H at 1. rewrite lstrip_idem. exact H.
  - rewrite <- H at 1. rewrite <- lstrip_rstrip_comm, rstrip_idem. 
    rewrite lstrip_rstrip_comm. exact H.
Qed.

Lemma strip_app_trimmed a m b :
  trimmed a -> a <> "" -> trimmed b -> b <> "" -> strip (a ++ m ++ b) = a ++ m ++ b.
Proof.
  intros Ha Na Hb Nb. destruct (trimmed_parts _ Ha) as [La Ra], (trimmed_parts _ Hb) as [Lb Rb].
  unfold strip. rewrite <- app_assoc_s, rstrip_app_nonempty by auto.
  rewrite app_assoc_s. apply lstrip_app_nonempty; auto.
Qed.

Lemma string_match_nonempty (s : string) (A : Type) (x y : A) :
  s <> "" -> match s with EmptyString => x | String _ _ => y end = y.
Proof. destruct s; congruence. Qed.

(** Every spelling of a setting (blanks around key and value, trailing comment) is read as the setting. *)
Lemma classify_spelling k v s1 s2 s3 s4 cmt :
  writable_key k -> writable_val v ->
  all_space s1 -> all_space s2 -> all_space s3 -> all_space s4 ->
  (cmt = "" \/ exists t, cmt = String hash_char t) ->
  classify (s1 ++ k ++ s2 ++ ":" ++ s3 ++ v ++ s4 ++ cmt) = Entry k v.
Proof.
  intros [Nk [Tk [Hk Ck]]] [Nv [Tv Hv]] S1 S2 S3 S4 Hc.
  assert (SH : forall s, all_space s -> free_of hash_char s).
  { induction s as [|c r IH]; simpl; [auto|]. intros [A B]. split; [|auto].
    intros ->. discriminate A. }
  assert (SC : forall s, all_space s -> free_of colon_char s).
  { induction s as [|c r IH]; simpl; [auto|]. intros [A B]. split; [|auto].
    intros ->. discriminate A. }
  assert (E : match split1 hash_char (s1 ++ k ++ s2 ++ ":" ++ s3 ++ v ++ s4 ++ cmt) with
              | None => s1 ++ k ++ s2 ++ ":" ++ s3 ++ v ++ s4 ++ cmt
              | Some (a, _) => a end = s1 ++ k ++ s2 ++ ":" ++ s3 ++ v ++ s4).
  { assert (F : free_of hash_char (s1 ++ k ++ s2 ++ ":" ++ s3 ++ v ++ s4)).
    { rewrite !free_of_app. simpl.
      repeat split; auto; try (discriminate). }
    assert (R : s1 ++ k ++ s2 ++ ":" ++ s3 ++ v ++ s4 ++ cmt
                = (s1 ++ k ++ s2 ++ ":" ++ s3 ++ v ++ s4) ++ cmt).
    { rewrite !app_assoc_s. reflexivity. }
    rewrite R. destruct Hc as [->|[t ->]].
    - assert (forall s, s ++ "" = s) as A by (induction s; simpl; congruence).
      rewrite A. rewrite split1_free by exact F. reflexivity.
    - rewrite split1_app by exact F. reflexivity. }
  unfold classify. rewrite E. clear E.
  assert (E2 : strip (s1 ++ k ++ s2 ++ ":" ++ s3 ++ v ++ s4) = k ++ (s2 ++ ":" ++ s3) ++ v).
  { rewrite strip_app_space_l by exact S1.
    replace (k ++ s2 ++ ":" ++ s3 ++ v ++ s4) with ((k ++ (s2 ++ ":" ++ s3) ++ v) ++ s4)
      by (repeat (rewrite !app_assoc_s; simpl); reflexivity).
    rewrite strip_app_space_r by exact S4. apply strip_app_trimmed; auto. }
  rewrite E2.
  assert (N : k ++ (s2 ++ ":" ++ s3) ++ v <> "").
  { destruct k; [congruence|discriminate]. }
  destruct (k ++ (s2 ++ ":" ++ s3) ++ v) as [|x y] eqn:Ex; [congruence|]. rewrite <- Ex.
  replace (k ++ (s2 ++ ":" ++ s3) ++ v) with ((k ++ s2) ++ String colon_char (s3 ++ v))
    by (rewrite !app_assoc_s; reflexivity).
  rewrite split1_app by (rewrite free_of_app; auto).
  rewrite strip_app_space_r, strip_app_space_l by auto.
  rewrite Tk, Tv. reflexivity.
Qed.

Lemma classify_blank sp cmt :
  all_space sp -> (cmt = "" \/ exists t, cmt = String hash_char t) ->
  classify (sp ++ cmt) = Blank.
Proof.
  intros S Hc.
  assert (SH : forall s, all_space s -> free_of hash_char s).
  { induction s as [|c r IH]; simpl; [auto|]. intros [A B]. split; [|auto].
    intros ->. discriminate A. }
  assert (Z : strip sp = "").
  { pose proof (strip_app_space_r "" sp S) as E. simpl in E. exact E. }
  unfold classify. destruct Hc as [->|[t ->]].
  - assert (forall s, s ++ "" = s) as A by (induction s; simpl; congruence).
    rewrite A, split1_free by auto. rewrite Z. reflexivity.
  - rewrite split1_app by auto. rewrite Z. reflexivity.
Qed.

(* ---------- reading files ---------- *)
Lemma read_blank_anywhere a b l c :
  classify l = Blank -> read_lines fos str (a ++ l :: b)%list c = read_lines fos str (a ++ b)%list c.
Proof.
  intro H. revert c; induction a as [|x a IH]; intro c; simpl.
  - rewrite H. reflexivity.
  - destruct (classify x) as [| |key val]; auto. destruct (get key c); [reflexivity|].
    destruct (setitem key (VStr val) c) as [c' [e|]]; auto.
Qed.

(** The settings a file spells out. *)
Fixpoint entries (l : list string) : option (list (string * string)) :=
  match l with
  | [] => Some []
  | x :: r => match classify x, entries r with
              | Blank, e => e
              | Illegal, _ => None
              | Entry k v, Some e => Some ((k, v) :: e)
              | Entry _ _, None => None
              end
  end.

Definition validates (kv : string * string) (c : pyval) : Prop :=
  exists f, validator (fst kv) = Some f /\ f (VStr (snd kv)) = Ok c.

Lemma read_lines_ok l c es :
  entries l = Some es ->
  NoDup (map fst es) ->
  (forall k, In k (map fst es) -> get k c = None) ->
  (forall kv, In kv es -> exists v, validates kv v) ->
  exists c', read_lines fos str l c = Ok c' /\
    (forall kv v, In kv es -> validates kv v -> get (fst kv) c' = Some v) /\
    (forall k, ~ In k (map fst es) -> get k c' = get k c).
Proof.
  revert c es; induction l as [|x l IH]; intros c es He ND Hfresh Hval; simpl in *.
  - injection He as <-. exists c. split; [reflexivity|]. split; [intros kv v []|auto].
  - destruct (classify x) as [| |k v]; [eauto|discriminate|].
    destruct (entries l) as [e|] eqn:El; [|discriminate]. injection He as <-.
    simpl in ND. inversion ND as [|? ? Hn ND']; subst.
    rewrite (Hfresh k) by (left; reflexivity).
    destruct (Hval (k, v)) as [w [f [F1 F2]]]; [left; reflexivity|]. simpl in F1, F2.
    unfold RcModel.setitem. rewrite F1, F2.
    destruct (IH (put k w c) e) as [c' [R1 [R2 R3]]]; auto.
    + intros k' Hk'. rewrite get_put_other by (intros ->; auto). apply Hfresh; right; exact Hk'.
    + intros kv Hin; apply Hval; right; exact Hin.
    + exists c'. split; [exact R1|]. split.
      * intros kv v0 [<-|Hin] [f0 [G1 G2]].
        -- simpl in *. rewrite R3 by exact Hn. rewrite get_put_same.
           congruence.
        -- apply R2; [exact Hin|exists f0; auto].
      * intros k' Hk'. rewrite R3 by (intro; apply Hk'; right; auto).
        apply get_put_other. intro; subst; apply Hk'; left; reflexivity.
Qed.

Lemma read_lines_prefix_err a l c e :
  read_lines fos str a c = Err e -> read_lines fos str (a ++ l)%list c = Err e.
Proof.
  revert c; induction a as [|x a IH]; intro c; simpl; [discriminate|].
  destruct (classify x) as [| |key val]; auto. destruct (get key c); auto.
  destruct (setitem key (VStr val) c) as [c' [e'|]]; auto.
Qed.

Lemma read_lines_app a l c c' :
  read_lines fos str a c = Ok c' -> read_lines fos str (a ++ l)%list c = read_lines fos str l c'.
Proof.
  revert c; induction a as [|x a IH]; intro c; simpl.
  - intro H; injection H as <-; reflexivity.
  - destruct (classify x) as [| |key val]; auto; try discriminate. destruct (get key c); [discriminate|].
    destruct (setitem key (VStr val) c) as [c0 [e'|]]; [discriminate|auto].
Qed.

Lemma read_keys_grow a c c' k :
  read_lines fos str a c = Ok c' -> get k c <> None -> get k c' <> None.
Proof.
  revert c; induction a as [|x a IH]; intro c; simpl.
  - intro H; injection H as <-; auto.
  - destruct (classify x) as [| |key val]; [exact (IH c)|discriminate|].
    destruct (get key c) eqn:G; [discriminate|].
    destruct (setitem key (VStr val) c) as [c0 [e'|]] eqn:E; [discriminate|].
    intros H Hk. apply (IH c0 H).
    destruct (setitem_ok _ _ _ _ E) as [f [w [_ [_ ->]]]].
    destruct (String.string_dec key k) as [->|N]; [rewrite get_put_same; discriminate|].
    rewrite get_put_other; auto.
Qed.

Lemma read_illegal a l b c : 
  classify l = Illegal -> exists e, read_lines fos str (a ++ l :: b)%list c = Err e.
Proof.
  intro H. destruct (read_lines fos str a c) as [c'|e] eqn:E.
  - rewrite (read_lines_app _ _ _ _ E). simpl. rewrite H. eauto.
  - exists e. apply read_lines_prefix_err; exact E.
Qed.

Lemma read_duplicate a b d k v v' l l' c :
  classify l = Entry k v -> classify l' = Entry k v' ->
  exists e, read_lines fos str (a ++ l :: b ++ l' :: d)%list c = Err e.
Proof.
  intros H H'. destruct (read_lines fos str (a ++ l :: b)%list c) as [c'|e] eqn:E.
  - replace (a ++ l :: b ++ l' :: d)%list with ((a ++ l :: b) ++ l' :: d)%list
      by (rewrite <- app_assoc; reflexivity).
    rewrite (read_lines_app _ _ _ _ E). simpl. rewrite H'.
    assert (get k c' <> None) as N.
    { destruct (read_lines fos str a c) as [c0|e0] eqn:E0.
      2:{ rewrite (read_lines_prefix_err _ (l :: b) _ _ E0) in E; discriminate. }
      rewrite (read_lines_app _ _ _ _ E0) in E. simpl in E. rewrite H in E.
      destruct (get k c0) eqn:G; [discriminate|].
      destruct (setitem k (VStr v) c0) as [c1 [e'|]] eqn:E1; [discriminate|].
      eapply read_keys_grow; [exact E|].
      destruct (setitem_ok _ _ _ _ E1) as [f [w [_ [_ ->]]]]. rewrite get_put_same; discriminate. }
    destruct (get k c'); [eauto|congruence].
  - exists e. replace (a ++ l :: b ++ l' :: d)%list with ((a ++ l :: b) ++ l' :: d)%list
      by (rewrite <- app_assoc; reflexivity).
    apply read_lines_prefix_err; exact E.
Qed.

Lemma read_lines_nodup l c c' :
  NoDup (map fst c) -> read_lines fos str l c = Ok c' -> NoDup (map fst c').
Proof.
  revert c; induction l as [|x l IH]; intros c ND; simpl; [intro H; injection H as <-; exact ND|].
  destruct (classify x) as [| |key val]; [eauto|discriminate|].
  destruct (get key c) eqn:G; [discriminate|].
  destruct (setitem key (VStr val) c) as [c0 [e'|]] eqn:E; [discriminate|].
  apply IH. destruct (setitem_ok _ _ _ _ E) as [f [w [_ [_ ->]]]].
  assert (~ In key (map fst c)) as N by (intro Hin; apply get_In in Hin; destruct Hin; congruence).
  rewrite put_keys_new by exact N.
  apply (Permutation_NoDup (Permutation_cons_append (map fst c) key)). constructor; auto.
Qed.

Lemma read_lines_valid l c c' :
  all_valid c -> read_lines fos str l c = Ok c' -> all_valid c'.
Proof.
  revert c; induction l as [|x l IH]; intros c ND; simpl; [intro H; injection H as <-; exact ND|].
  destruct (classify x) as [| |key val]; [eauto|discriminate|].
  destruct (get key c) eqn:G; [discriminate|].
  destruct (setitem key (VStr val) c) as [c0 [e'|]] eqn:E; [discriminate|].
  apply IH. destruct (setitem_ok _ _ _ _ E) as [f [w [F1 [F2 ->]]]].
  intros k v Hin. clear IH E.
  assert (In (k, v) c \/ (k = key /\ v = w)) as [H|[-> ->]].
  { clear -Hin. revert Hin. induction c as [|[a b] c IH]; simpl.
    - intros [H|[]]; injection H as <- <-; auto.
    - destruct (String.eqb key a) eqn:Ea; simpl.
      + intros [H|H]; [injection H as <- <-; auto|auto].
      + intros [H|H]; [auto|]. destruct (IH H); auto. }
  - apply ND; exact H.
  - eapply validator_out; eauto.
Qed.

End P.

(* ---------- rc file location ---------- *)
Lemma first_file_some fs l p :
  first_file fs l = Some p <->
  exists a b, l = (a ++ p :: b)%list /\ fs p = IsFile /\ forall q, In q a -> fs q <> IsFile.
Proof.
  induction l as [|x l IH]; simpl.
  - split; [discriminate|]. intros [a [b [H _]]]. destruct a; discriminate.
  - destruct (fs x) eqn:E.
    + rewrite IH. split.
      * intros [a [b [-> [H1 H2]]]]. exists (x :: a)%list, b. split; [reflexivity|]. split; [exact H1|].
        intros q [<-|Hq]; [congruence|auto].
      * intros [a [b [H [H1 H2]]]]. destruct a as [|y a]; simpl in H; injection H as -> ->; [congruence|].
        exists a, b. split; [reflexivity|]. split; [exact H1|]. intros q Hq; apply H2; right; exact Hq.
    + rewrite IH. split.
      * intros [a [b [-> [H1 H2]]]]. exists (x :: a)%list, b. split; [reflexivity|]. split; [exact H1|].
        intros q [<-|Hq]; [congruence|auto].
      * intros [a [b [H [H1 H2]]]]. destruct a as [|y a]; simpl in H; injection H as -> ->; [congruence|].
        exists a, b. split; [reflexivity|]. split; [exact H1|]. intros q Hq; apply H2; right; exact Hq.
    + split.
      * intro H; injection H as <-. exists [], l. split; [reflexivity|]. split; [exact E|]. intros q [].
      * intros [a [b [H [H1 H2]]]]. destruct a as [|y a]; simpl in H; injection H as -> ->; [reflexivity|].
        exfalso. apply (H2 y); [left; reflexivity|exact E].
Qed.

Lemma first_file_none fs l : first_file fs l = None <-> forall q, In q l -> fs q <> IsFile.
Proof.
  induction l as [|x l IH]; simpl.
  - split; auto.
  - destruct (fs x) eqn:E.
    + rewrite IH. split; [intros H q [<-|Hq]; [congruence|auto]|auto].
    + rewrite IH. split; [intros H q [<-|Hq]; [congruence|auto]|auto].
    + split; [discriminate|]. intro H. exfalso. apply (H x); auto.
Qed.
