(** Property theorems for preliz.rcParams, rc files and rc_context: C01 - C05. *)
From Coq Require Import List Bool Ascii String ZArith QArith Permutation Sorted Lia.
From Verif Require Import Base RcModel RcSpec RcProofs.
Import ListNotations.
Open Scope string_scope.

(* ---------------- C01 ---------------- *)
(** After importing the package (with any rc file that loads) and running any program over the settings,
    whether it ends normally or with an exception, the settings object is sound. *)
Theorem C01_settings_always_sound :
  forall fos str file s0 p s e,
    rc_params fos str file = Ok s0 ->
    exec fos str p s0 = (s, e) ->
    sound s.
Proof.
  intros fos str file s0 p s e H0 H. apply rc_params_sound in H0.
  pose proof (sound_exec fos str p s0 H0) as H1. rewrite H in H1. exact H1.
Qed.

(** Non-vacuity: the defaults load, and a program with a nested context, a failing assignment and an accepted
    one runs. *)
Definition demo_fos (s : string) : option pyfloat :=
  if String.eqb s "0.5" then Some (FQ (1 # 2)) else if String.eqb s "nan" then Some FNaN else None.
Definition demo_str (v : pyval) : string := "None".
Definition demo_prog : prog :=
  Seq (SetItem "stats.ci_kind" (VStr "HDI"))
      (Try (With [("stats.ci_prob", VStr "0.5"); ("plots.show_plot", VStr "False")] None
             (Seq (SetItem "stats.ci_kind" (VStr "eti")) (SetItem "stats.ci_prob" (VInt 7))))
           (SetItem "no.such.key" (VInt 1))).

Example C01_example :
  rc_params demo_fos demo_str None = Ok default_items /\
  exec demo_fos demo_str demo_prog default_items
  = ([("stats.ci_kind", VStr "hdi"); ("stats.ci_prob", VFloat (FQ (89 # 100)));
      ("plots.show_plot", VBool true)], Some KeyError).
Proof. split; vm_compute; reflexivity. Qed.

Lemma str_leb_alphabetical a b : str_leb a b = true <-> alphabetical a b.
Proof.
  revert b. induction a as [|c a IH]; intros [|d b]; cbn [str_leb].
  - split; [intros _; left; exists ""; reflexivity|reflexivity].
  - split; [intros _; left; eexists; reflexivity|reflexivity].
  - split; [discriminate|]. intros [[r R]|(p & c1 & d1 & x & y & A & B & L)]; [discriminate R|]. destruct p; discriminate B.
  - destruct (Nat.ltb_spec (nat_of_ascii c) (nat_of_ascii d)) as [L|L].
    + split; [intros _|reflexivity]. right. exists "", c, d, a, b. auto.
    + destruct (Nat.ltb_spec (nat_of_ascii d) (nat_of_ascii c)) as [M|M].
      * split; [discriminate|]. intros [[r R]|(p & c1 & d1 & x & y & A & B & N)].
        -- injection R as -> _. lia.
        -- destruct p as [|e p]; cbn in A, B; injection A as -> ->; injection B as -> ->; lia.
      * assert (E : c = d). { rewrite <- (ascii_nat_embedding c), <- (ascii_nat_embedding d). f_equal. lia. }
        subst d. rewrite IH. split.
        -- intros [[r ->]|(p & c1 & d1 & x & y & -> & -> & N)]; [left; exists r; reflexivity|].
           right. exists (String c p), c1, d1, x, y. auto.
        -- intros [[r R]|(p & c1 & d1 & x & y & A & B & N)]; [injection R as ->; left; eauto|].
           destruct p as [|e p]; cbn in A, B; injection A as -> ->; [injection B as -> ->; lia|injection B as ->]. right. exists p, c1, d1, x, y. auto.
Qed.
(** Iteration over the settings is in alphabetical order and visits each key once. *)
Theorem C01_iteration_sorted :
  forall s, Sorted alphabetical (iter_keys s) /\ Permutation (iter_keys s) (map fst s).
Proof.
  intro s. split; [|apply iter_keys_perm]. pose proof (iter_keys_chain s) as H. induction (iter_keys s) as [|a [|b t] IH]; [constructor|repeat constructor|].
  destruct H as [H1 H2]. constructor; [apply IH, H2|]. constructor. apply str_leb_alphabetical, H1.
Qed.
Example C01_iteration_case : iter_keys default_items = ["plots.show_plot"; "stats.ci_kind"; "stats.ci_prob"].
Proof. reflexivity. Qed.

(** find_all returns exactly the settings whose key matches. *)
Theorem C01_find_all :
  forall fos str (p : string -> bool) s, sound s ->
    snd (find_all fos str p s) = None /\
    forall k, get k (fst (find_all fos str p s)) = if p k then get k s else None.
Proof. exact find_all_spec. Qed.

(** Finding: the probability setting accepts nan. *)
Theorem C01_nan_probability_refuted :
  exists fos str s, fst (exec fos str (SetItem "stats.ci_prob" (VStr "nan")) default_items) = s /\
    get "stats.ci_prob" s = Some (VFloat FNaN).
Proof. exists demo_fos, demo_str. eexists; split; [reflexivity|]. vm_compute; reflexivity. Qed.

(** Finding: assigning the integer 1 to the boolean setting is accepted and stores False. *)
Theorem C01_one_is_stored_as_false_refuted :
  forall fos str s,
    snd (exec fos str (SetItem "plots.show_plot" (VInt 1)) s) = None /\
    get "plots.show_plot" (fst (exec fos str (SetItem "plots.show_plot" (VInt 1)) s)) = Some (VBool false).
Proof. intros. split; [reflexivity|]. apply get_put_same. Qed.

Print Assumptions C01_settings_always_sound.
Print Assumptions C01_find_all.

(* ---------------- C02 ---------------- *)
(** A rejected assignment changes nothing. *)
Theorem C02_rejected_assignment_changes_nothing :
  forall fos str k v s s' e, exec fos str (SetItem k v) s = (s', Some e) -> s' = s.
Proof. intros fos str k v s s' e. exact (setitem_err fos str k v s s' e). Qed.

(** KeyError is raised exactly for keys that are not settings. *)
Theorem C02_unknown_key :
  forall fos str k v s,
    snd (exec fos str (SetItem k v) s) = Some KeyError <-> ~ In k known_keys.
Proof.
  intros fos str k v s. cbn [exec]. unfold setitem. rewrite (validator_known fos str).
  destruct (validator fos str k) as [f|] eqn:E.
  - split; [|intro H; exfalso; apply H; eauto].
    destruct (f v) as [c|e] eqn:Ef; simpl; [discriminate|]. intro H; injection H as ->.
    exfalso. revert Ef E. unfold validator.
    destruct (String.eqb k "stats.ci_kind").
    { intros Ef E; injection E as <-. unfold validate_ci_kind in Ef.
      destruct (_ || _)%bool; discriminate. }
    destruct (String.eqb k "stats.ci_prob").
    { intros Ef E; injection E as <-. unfold validate_probability, validate_float, py_float, bind in Ef.
      destruct v; try discriminate; try (destruct (fos s0)); try discriminate;
        destruct (_ || _)%bool; discriminate. }
    destruct (String.eqb k "plots.show_plot"); [|discriminate].
    intros Ef E; injection E as <-. unfold validate_boolean, bind in Ef.
    destruct v; simpl in Ef; try discriminate;
      try (destruct f as [q| | |]; simpl in Ef; try discriminate); destruct (_ || _)%bool; discriminate.
  - split; [intros _ [f H]; discriminate|reflexivity].
Qed.

(** An accepted assignment stores a valid value under its key and changes no other key; a valid value is
    stored as it is. *)
Theorem C02_accepted_assignment :
  forall fos str k v s s',
    exec fos str (SetItem k v) s = (s', None) ->
    (exists c, get k s' = Some c /\ valid_setting k c) /\
    (forall k', k' <> k -> get k' s' = get k' s).
Proof.
  intros fos str k v s s' H. apply setitem_ok in H. destruct H as [f [c [E1 [E2 ->]]]].
  split.
  - exists c. split; [apply get_put_same|]. eapply validator_out; eauto.
  - intros k' N. apply get_put_other. congruence.
Qed.

Theorem C02_valid_values_are_stored_unchanged :
  forall fos str k v s, valid_setting k v ->
    snd (exec fos str (SetItem k v) s) = None /\ get k (fst (exec fos str (SetItem k v) s)) = Some v.
Proof.
  intros fos str k v s H. simpl. rewrite setitem_valid by exact H. split; [reflexivity|].
  apply get_put_same.
Qed.

(** [str.lower] against the words of the settings. *)
Lemma lower_letter c d : (97 <= nat_of_ascii d <= 122)%nat -> lower_ascii c = d <-> c = d \/ (nat_of_ascii c + 32 = nat_of_ascii d)%nat.
Proof.
  intro H. unfold lower_ascii. cbv zeta. destruct ((65 <=? nat_of_ascii c)%nat && (nat_of_ascii c <=? 90)%nat)%bool eqn:E.
  - apply andb_true_iff in E. destruct E as [E1 E2]. apply Nat.leb_le in E1, E2. split.
    + intros <-. right. rewrite nat_ascii_embedding by lia. reflexivity.
    + intros [->|E]; [lia|]. rewrite E. apply ascii_nat_embedding.
  - split; [auto|]. intros [A|A]; [exact A|]. apply andb_false_iff in E. destruct E as [E|E]; apply Nat.leb_gt in E; lia.
Qed.
Fixpoint word (s : string) : Prop := match s with EmptyString => True | String c s => (97 <= nat_of_ascii c <= 122)%nat /\ word s end.
Lemma lower_word w : word w -> forall s, lower s = w <-> in_any_case s w.
Proof.
  induction w as [|d w IH]; intros H [|c s]; cbn [lower in_any_case].
  - split; reflexivity.
  - split; [discriminate|contradiction].
  - split; [discriminate|contradiction].
  - destruct H as [H1 H2]. rewrite <- lower_letter by exact H1. rewrite <- IH by exact H2. split; [intros [= E F]; auto|intros [-> ->]; reflexivity].
Qed.
Lemma lower_true s : lower s = "true" <-> in_any_case s "true".
Proof. apply lower_word. cbn. lia. Qed.
Lemma lower_false s : lower s = "false" <-> in_any_case s "false".
Proof. apply lower_word. cbn. lia. Qed.
Lemma lower_eti s : lower s = "eti" <-> in_any_case s "eti".
Proof. apply lower_word. cbn. lia. Qed.
Lemma lower_hdi s : lower s = "hdi" <-> in_any_case s "hdi".
Proof. apply lower_word. cbn. lia. Qed.
Lemma case_conflict s w1 w2 : word w1 -> word w2 -> in_any_case s w1 -> in_any_case s w2 -> w1 = w2.
Proof. intros H1 H2 A B. apply lower_word in A, B; auto. congruence. Qed.

(** What an assignment of [v] under [k] does: it stores [c], or it raises [e]. *)
Definition stores fos str k v c := forall s, exec fos str (SetItem k v) s = (put k c s, None).
Definition raises fos str k v e := forall s, exec fos str (SetItem k v) s = (s, Some e).
(** plots.show_plot takes True, False, and the texts "true" and "false" in any case. The numbers 0 and 1 are stored as False. Any other text,
    number, None or object is a ValueError, a list is a TypeError. *)
Theorem C02_show_plot : forall fos str, let k := "plots.show_plot" in
  (forall b, stores fos str k (VBool b) (VBool b)) /\
  (forall s, in_any_case s "true" -> stores fos str k (VStr s) (VBool true)) /\
  (forall s, in_any_case s "false" -> stores fos str k (VStr s) (VBool false)) /\
  (forall s, ~ in_any_case s "true" -> ~ in_any_case s "false" -> raises fos str k (VStr s) ValueError) /\
  (forall z, z = 0%Z \/ z = 1%Z -> stores fos str k (VInt z) (VBool false)) /\
  (forall z, z <> 0%Z -> z <> 1%Z -> raises fos str k (VInt z) ValueError) /\
  (forall q, q == 0 \/ q == 1 -> stores fos str k (VFloat (FQ q)) (VBool false)) /\
  (forall q, ~ q == 0 -> ~ q == 1 -> raises fos str k (VFloat (FQ q)) ValueError) /\
  (forall f, In f [FInf; FNegInf; FNaN] -> raises fos str k (VFloat f) ValueError) /\
  raises fos str k VNone ValueError /\ raises fos str k VObj ValueError /\ raises fos str k VList TypeError.
Proof.
  intros fos str k. unfold stores, raises, k. cbn [exec].
  assert (U : forall v s, setitem fos str "plots.show_plot" v s = match validate_boolean v with Ok c => (put "plots.show_plot" c s, None) | Err e => (s, Some e) end) by reflexivity.
  repeat match goal with |- _ /\ _ => split end; intros; rewrite U; unfold validate_boolean, in_bool_set; cbn [bind negb].
  - reflexivity.
  - apply lower_true in H. rewrite H. reflexivity.
  - apply lower_false in H. rewrite H. reflexivity.
  - rewrite <- lower_true in H. rewrite <- lower_false in H0. apply String.eqb_neq in H, H0. rewrite H, H0. reflexivity.
  - destruct H as [-> | ->]; reflexivity.
  - apply Z.eqb_neq in H, H0. rewrite H, H0. reflexivity.
  - assert (E : (Qeq_bool q 0 || Qeq_bool q 1)%bool = true) by (rewrite orb_true_iff, !Qeq_bool_iff; exact H). rewrite E. reflexivity.
  - assert (E : (Qeq_bool q 0 || Qeq_bool q 1)%bool = false) by (rewrite <- not_true_iff_false, orb_true_iff, !Qeq_bool_iff; tauto). rewrite E. reflexivity.
  - repeat (destruct H as [<-|H]; [reflexivity|]). contradiction.
  - reflexivity.
  - reflexivity.
  - reflexivity.
Qed.
(** stats.ci_prob takes the numbers from 0 to 1 (and nan), True as 1 and False as 0, and the texts that are such numbers. *)
Theorem C02_ci_prob : forall fos str, let k := "stats.ci_prob" in
  (forall f, not_outside_unit f -> stores fos str k (VFloat f) (VFloat f)) /\
  (forall f, ~ not_outside_unit f -> raises fos str k (VFloat f) ValueError) /\
  (forall z, z = 0%Z \/ z = 1%Z -> stores fos str k (VInt z) (VFloat (FQ (inject_Z z)))) /\
  (forall z, z <> 0%Z -> z <> 1%Z -> raises fos str k (VInt z) ValueError) /\
  stores fos str k (VBool true) (VFloat (FQ 1)) /\ stores fos str k (VBool false) (VFloat (FQ 0)) /\
  (forall s f, fos s = Some f -> not_outside_unit f -> stores fos str k (VStr s) (VFloat f)) /\
  (forall s f, fos s = Some f -> ~ not_outside_unit f -> raises fos str k (VStr s) ValueError) /\
  (forall s, fos s = None -> raises fos str k (VStr s) ValueError) /\
  (forall v, In v [VNone; VObj; VList] -> raises fos str k v TypeError).
Proof.
  intros fos str k. unfold stores, raises, k. cbn [exec].
  assert (U : forall v s, setitem fos str "stats.ci_prob" v s = match validate_probability fos v with Ok c => (put "stats.ci_prob" c s, None) | Err e => (s, Some e) end) by reflexivity.
  assert (R : forall f, (flt_0 f || fgt_1 f)%bool = false <-> not_outside_unit f).
  { intros [q| | |]; cbn; try (split; [discriminate|contradiction]); [|tauto]. rewrite orb_false_iff, !negb_false_iff, !Qle_bool_iff. tauto. }
  assert (R' : forall f, ~ not_outside_unit f -> (flt_0 f || fgt_1 f)%bool = true) by (intros f H; rewrite <- R in H; destruct (_ || _)%bool; congruence).
  repeat match goal with |- _ /\ _ => split end; intros; rewrite U; unfold validate_probability, validate_float, py_float; cbn [bind].
  - apply R in H. rewrite H. reflexivity.
  - rewrite R' by assumption. reflexivity.
  - destruct H as [-> | ->]; reflexivity.
  - rewrite R'; [reflexivity|]. cbn. unfold Qle. cbn. lia.
  - reflexivity.
  - reflexivity.
  - rewrite H. cbn [bind]. apply R in H0. rewrite H0. reflexivity.
  - rewrite H. cbn [bind]. rewrite R' by assumption. reflexivity.
  - rewrite H. reflexivity.
  - repeat (destruct H as [<-|H]; [reflexivity|]). contradiction.
Qed.
(** stats.ci_kind takes the texts "eti" and "hdi" in any case, and whatever object is written that way. *)
Theorem C02_ci_kind : forall fos str, let k := "stats.ci_kind" in
  (forall w s, w = "eti" \/ w = "hdi" -> in_any_case s w -> stores fos str k (VStr s) (VStr w)) /\
  (forall s, ~ in_any_case s "eti" -> ~ in_any_case s "hdi" -> raises fos str k (VStr s) ValueError) /\
  (forall v, (forall s, v <> VStr s) -> forall s, exec fos str (SetItem k v) s = exec fos str (SetItem k (VStr (str v))) s).
Proof.
  intros fos str k. unfold stores, raises, k. cbn [exec].
  assert (U : forall v s, setitem fos str "stats.ci_kind" v s = match validate_ci_kind str v with Ok c => (put "stats.ci_kind" c s, None) | Err e => (s, Some e) end) by reflexivity.
  repeat match goal with |- _ /\ _ => split end; intros; rewrite !U; unfold validate_ci_kind; cbn [to_str].
  - destruct H as [-> | ->]; [apply lower_eti in H0|apply lower_hdi in H0]; rewrite H0; reflexivity.
  - rewrite <- lower_eti in H. rewrite <- lower_hdi in H0. apply String.eqb_neq in H, H0. rewrite H, H0. reflexivity.
  - destruct v; try reflexivity. exfalso. apply (H s0). reflexivity.
Qed.
Example C02_cases : forall fos str,
  stores fos str "plots.show_plot" (VStr "TRUE") (VBool true) /\ stores fos str "stats.ci_kind" (VStr "HDI") (VStr "hdi") /\
  raises fos str "plots.show_plot" (VStr "yes") ValueError /\ raises fos str "stats.ci_prob" (VFloat (FQ (3 # 2))) ValueError.
Proof. intros. repeat split. Qed.

(** Keys can not be removed: every such attempt raises TypeError and changes nothing. *)
Theorem C02_no_deletion :
  forall fos str op s, exec fos str (Forbidden op) s = (s, Some TypeError).
Proof. reflexivity. Qed.

(** A dict update that raises midway: each key reads its old value or a validated value of the update. *)
Theorem C02_interrupted_update :
  forall fos str l s k,
    get k (fst (exec fos str (Update l) s)) = get k s \/
    exists v s1 s2, In (k, v) l /\ exec fos str (SetItem k v) s1 = (s2, None) /\
                    get k (fst (exec fos str (Update l) s)) = get k s2.
Proof.
  intros fos str l s k. destruct (update_trace fos str l s k) as [H|(v & f & c & H1 & H2 & H3 & H4)].
  - left; exact H.
  - right. exists v, s, (put k c s). split; [exact H1|]. split.
    + simpl. unfold setitem. rewrite H2, H3. reflexivity.
    + rewrite get_put_same. exact H4.
Qed.

Example C02_example :
  exec demo_fos demo_str (SetItem "stats.ci_prob" (VFloat (FQ (3 # 2)))) default_items
    = (default_items, Some ValueError) /\
  exec demo_fos demo_str (SetItem "stats.ci_prob" VNone) default_items = (default_items, Some TypeError) /\
  get "stats.ci_prob" (fst (exec demo_fos demo_str (SetItem "stats.ci_prob" (VStr "0.5")) default_items))
    = Some (VFloat (FQ (1 # 2))).
Proof. repeat split; vm_compute; reflexivity. Qed.

Print Assumptions C02_unknown_key.
Print Assumptions C02_interrupted_update.

(* ---------------- C03 ---------------- *)
(** Whatever the body of an rc_context block does (including raising, and including inner blocks that fail
    to be entered), once the block has been entered the settings afterwards are those before it, and the
    body's exception is the one that propagates. *)
Theorem C03_context_restores :
  forall fos str rc file body s s1 s' e,
    sound s ->
    ctx_init fos str rc file s = (s1, None) ->
    exec fos str (With rc file body) s = (s', e) ->
    same_settings s s' /\ e = snd (exec fos str body s1).
Proof.
  intros fos str rc file body s s1 s' e Hs Hi He.
  assert (Hn : snd (ctx_init fos str rc file s) = None) by (rewrite Hi; reflexivity).
  destruct (with_restores fos str rc file body s Hs Hn) as [A B].
  rewrite He in A, B. simpl in A, B. rewrite Hi in B. auto.
Qed.

(** Programs that touch the settings only inside blocks leave no trace. *)
Theorem C03_scoped_programs_leave_no_trace :
  forall fos str p s s' e,
    sound s -> scoped fos str p -> exec fos str p s = (s', e) -> same_settings s s'.
Proof.
  intros fos str p s s' e Hs Hp He. pose proof (scoped_restores fos str p s Hp Hs) as H.
  rewrite He in H. exact H.
Qed.

Example C03_example :
  scoped demo_fos demo_str
    (With [("stats.ci_prob", VStr "0.5")] None
         (Seq (SetItem "stats.ci_kind" (VStr "hdi"))
         (With [("plots.show_plot", VBool false)] None (Raise UserError)))) /\
  exec demo_fos demo_str
    (With [("stats.ci_prob", VStr "0.5")] None
         (Seq (SetItem "stats.ci_kind" (VStr "hdi"))
         (With [("plots.show_plot", VBool false)] None (Raise UserError)))) default_items
  = (default_items, Some UserError) /\
  sound default_items.
Proof.
  split; [|split].
  - apply sc_with. intros s _. reflexivity.
  - vm_compute; reflexivity.
  - exact (defaults_sound demo_fos demo_str).
Qed.

(** Finding: a block whose settings are partly invalid is not entered, and the settings applied before the
    invalid one stay applied for the rest of the program. *)
Theorem C03_failed_entry_leaks_refuted :
  exists fos str rc s', sound default_items /\
    exec fos str (With rc None Skip) default_items = (s', Some ValueError) /\
    ~ same_settings default_items s'.
Proof.
  exists demo_fos, demo_str, [("stats.ci_kind", VStr "hdi"); ("stats.ci_prob", VInt 7)].
  eexists. split; [exact (defaults_sound demo_fos demo_str)|]. split; [vm_compute; reflexivity|].
  intro H. specialize (H "stats.ci_kind"). vm_compute in H. discriminate.
Qed.

Print Assumptions C03_context_restores.

(* ---------------- C04 ---------------- *)
(** A file that spells out distinct settings with acceptable values, in any layout, loads to exactly the
    values that assigning them one by one would store, and to nothing else. *)
Theorem C04_file_settings :
  forall fos str lines es,
    spells lines es ->
    NoDup (map fst es) ->
    (forall k v, In (k, v) es -> exists s1, exec fos str (SetItem k (VStr v)) [] = (s1, None)) ->
    exists c, read_rcfile fos str (Lines lines) = Ok c /\
      (forall k v s1, In (k, v) es -> exec fos str (SetItem k (VStr v)) [] = (s1, None) ->
         get k c = get k s1) /\
      (forall k, ~ In k (map fst es) -> get k c = None).
Proof.
  intros fos str lines es Hsp ND Hv.
  assert (He : entries lines = Some es).
  { clear Hv ND. induction Hsp; cbn [entries]; [reflexivity| |].
    - rewrite classify_blank by assumption. exact IHHsp.
    - rewrite classify_spelling by assumption. rewrite IHHsp. reflexivity. }
  destruct (read_lines_ok fos str lines [] es He ND) as [c [R1 [R2 R3]]].
  - reflexivity.
  - intros [k v] Hin. destruct (Hv k v Hin) as [s1 H1]. apply setitem_ok in H1.
    destruct H1 as [f [w [E1 [E2 _]]]]. exists w, f. auto.
  - exists c. split; [exact R1|]. split.
    + intros k v s1 Hin H1. apply setitem_ok in H1. destruct H1 as [f [w [E1 [E2 ->]]]].
      rewrite get_put_same. apply (R2 (k, v) w Hin). exists f; auto.
    + intros k Hk. rewrite R3 by exact Hk. reflexivity.
Qed.

(** The order of the lines is irrelevant. *)
Theorem C04_line_order_irrelevant :
  forall fos str l1 es1 l2 es2 c1 c2,
    spells l1 es1 -> spells l2 es2 -> Permutation es1 es2 ->
    NoDup (map fst es1) ->
    (forall k v, In (k, v) es1 -> exists s1, exec fos str (SetItem k (VStr v)) [] = (s1, None)) ->
    read_rcfile fos str (Lines l1) = Ok c1 -> read_rcfile fos str (Lines l2) = Ok c2 ->
    same_settings c1 c2.
Proof.
  intros fos str l1 es1 l2 es2 c1 c2 S1 S2 P ND Hv R1 R2.
  destruct (C04_file_settings fos str l1 es1 S1 ND Hv) as [c1' [E1 [A1 B1]]].
  assert (ND2 : NoDup (map fst es2)) by (eapply Permutation_NoDup; [apply Permutation_map; exact P|exact ND]).
  assert (Hv2 : forall k v, In (k, v) es2 -> exists s1, exec fos str (SetItem k (VStr v)) [] = (s1, None)).
  { intros k v H. apply (Hv k v). eapply Permutation_in; [apply Permutation_sym; exact P|exact H]. }
  destruct (C04_file_settings fos str l2 es2 S2 ND2 Hv2) as [c2' [E2 [A2 B2]]].
  assert (c1' = c1) by congruence. assert (c2' = c2) by congruence. subst.
  intro k. destruct (in_dec String.string_dec k (map fst es1)) as [Hin|Hout].
  - apply in_map_iff in Hin. destruct Hin as [[k' v] [Hk Hin]]. simpl in Hk; subst k'.
    destruct (Hv k v Hin) as [s1 Hs1].
    rewrite (A1 k v s1 Hin Hs1).
    rewrite (A2 k v s1 (Permutation_in _ P Hin) Hs1). reflexivity.
  - rewrite B1 by exact Hout. rewrite B2; [reflexivity|].
    intro H. apply Hout. eapply Permutation_in; [apply Permutation_sym, Permutation_map; exact P|exact H].
Qed.

(** A line without a colon, or a key that occurs twice, makes loading fail, wherever it is. *)
Theorem C04_line_without_colon_fails :
  forall fos str before line after,
    no_colon_line line ->
    exists e, read_rcfile fos str (Lines (before ++ line :: after)%list) = Err e.
Proof.
  intros fos str before line after [a [c [-> [Ha [Hc [Hcol Hns]]]]]].
  apply read_illegal.
  assert (E : match split1 hash_char (a ++ c) with None => a ++ c | Some (x, _) => x end = a).
  { destruct Hc as [->|[t ->]].
    - assert (forall s, s ++ "" = s) as A by (induction s; simpl; congruence).
      rewrite A, split1_free by exact Ha. reflexivity.
    - rewrite split1_app by exact Ha. reflexivity. }
  unfold classify. rewrite E.
  assert (F : free_of colon_char (strip a)).
  { assert (L : forall s, free_of colon_char s -> free_of colon_char (lstrip s)).
    { induction s as [|d s IH]; simpl; [auto|]. intros [A B]. destruct (is_space d); simpl; auto. }
    assert (R : forall s, free_of colon_char s -> free_of colon_char (rstrip s)).
    { induction s as [|d s IH]; simpl; [auto|]. intros [A B]. specialize (IH B).
      destruct (rstrip s); [destruct (is_space d); simpl; auto|]. simpl in *; auto. }
    apply L, R, Hcol. }
  assert (N : strip a <> "").
  { intro H. apply Hns. clear -H. unfold strip in H.
    assert (L : forall s, lstrip s = "" -> all_space s).
    { induction s as [|d s IH]; simpl; [auto|]. destruct (is_space d); [auto|discriminate]. }
    apply L in H. clear L.
    induction a as [|d s IH]; simpl in *; [auto|].
    destruct (rstrip s) as [|x y] eqn:Er.
    - split.
      + destruct (is_space d) eqn:Ed; [reflexivity|]. simpl in H. destruct H; congruence.
      + apply IH. simpl. exact I.
    - simpl in H. split; [tauto|]. apply IH. simpl; tauto. }
  destruct (strip a) as [|x y] eqn:Es; [congruence|].
  rewrite split1_free by exact F. reflexivity.
Qed.

Theorem C04_repeated_key_fails :
  forall fos str before between after line line' k v v',
    spells [line] [(k, v)] -> spells [line'] [(k, v')] ->
    exists e, read_rcfile fos str (Lines (before ++ line :: between ++ line' :: after)%list) = Err e.
Proof.
  intros fos str before between after line line' k v v' H H'.
  assert (C : forall l k v, spells [l] [(k, v)] -> classify l = Entry k v).
  { intros l k0 v0 S. inversion S; subst.
    - match goal with S' : spells [] _ |- _ => inversion S' end.
    - apply classify_spelling; assumption. }
  simpl. eapply read_duplicate; eauto.
Qed.

(** FINDING. The exception is a TypeError: a file that loads up to a line without a colon, or up to a key that it has already set, or that
    cannot be decoded, is refused because the call that should give a warning fails. A file that cannot be opened is an OSError. *)
Theorem C04_warnings_fail_refuted :
  (forall fos str before line after c, no_colon_line line -> read_rcfile fos str (Lines before) = Ok c ->
     read_rcfile fos str (Lines (before ++ line :: after)%list) = Err TypeError) /\
  (forall fos str before line after c k v old, spells [line] [(k, v)] -> read_rcfile fos str (Lines before) = Ok c -> get k c = Some old ->
     read_rcfile fos str (Lines (before ++ line :: after)%list) = Err TypeError) /\
  (forall fos str, read_rcfile fos str Undecodable = Err TypeError) /\
  (forall fos str, read_rcfile fos str Missing = Err OSError).
Proof.
  repeat match goal with |- _ /\ _ => split end; [| |reflexivity|reflexivity].
  - intros fos str before line after c N R. destruct (C04_line_without_colon_fails fos str [] line [] N) as [e E]. cbn in *.
    rewrite (read_lines_app _ _ _ _ _ _ R). cbn [read_lines].
    destruct (classify line) as [| |k v] eqn:K; [discriminate E|reflexivity|]. exfalso.
    destruct N as (a & cm & -> & Fa & Hc & Fc & Ns).
    assert (X : match split1 hash_char (a ++ cm) with None => a ++ cm | Some (x, _) => x end = a).
    { destruct Hc as [->|[t ->]].
      - assert (forall s, s ++ "" = s) as A by (induction s; simpl; congruence). rewrite A, split1_free by exact Fa. reflexivity.
      - rewrite split1_app by exact Fa. reflexivity. }
    unfold classify in K. rewrite X in K.
    assert (F : free_of colon_char (strip a)).
    { assert (L : forall s, free_of colon_char s -> free_of colon_char (lstrip s)).
      { induction s as [|d s IH]; simpl; [auto|]. intros [A B]. destruct (is_space d); simpl; auto. }
      assert (Rr : forall s, free_of colon_char s -> free_of colon_char (rstrip s)).
      { induction s as [|d s IH]; simpl; [auto|]. intros [A B]. specialize (IH B).
        destruct (rstrip s); [destruct (is_space d); simpl; auto|]. simpl in *; auto. }
      apply L, Rr, Fc. }
    rewrite split1_free in K by exact F. destruct (strip a); discriminate K.
  - intros fos str before line after c k v old H R G. cbn in *. rewrite (read_lines_app _ _ _ _ _ _ R). cbn [read_lines].
    assert (K : classify line = Entry k v).
    { inversion H; subst; [match goal with S' : spells [] _ |- _ => inversion S' end|apply classify_spelling; assumption]. }
    rewrite K, G. reflexivity.
Qed.
Example C04_example :
  exists c, read_rcfile demo_fos demo_str
    (Lines ["# my settings"; ""; "  stats.ci_kind :HDI   # comment"; "plots.show_plot: false"]) = Ok c /\
    get "stats.ci_kind" c = Some (VStr "hdi") /\ get "plots.show_plot" c = Some (VBool false) /\
    get "stats.ci_prob" c = None.
Proof. eexists. split; [vm_compute; reflexivity|]. repeat split; vm_compute; reflexivity. Qed.

Print Assumptions C04_file_settings.
Print Assumptions C04_line_without_colon_fails.

(* ---------------- C05 ---------------- *)
(** The file used is the first candidate that exists and is not a directory. *)
Theorem C05_first_existing_file :
  forall e fs p,
    get_preliz_rcfile e fs = Some p <->
    exists before after, candidates e = (before ++ p :: after)%list /\ fs p = IsFile /\
                         forall q, In q before -> fs q <> IsFile.
Proof. intros. apply first_file_some. Qed.

Theorem C05_none_iff_no_file :
  forall e fs, get_preliz_rcfile e fs = None <-> forall q, In q (candidates e) -> fs q <> IsFile.
Proof. intros. apply first_file_none. Qed.

(** The candidates, in order, as documented. *)
Theorem C05_documented_order :
  forall e,
    exists data,
      (data = [] /\ (arviz_data e = None \/ arviz_data e = Some "") \/
       exists d, arviz_data e = Some d /\ d <> "" /\ data = [d ++ "/prelizrc"]) /\
      exists conf,
      candidates e = (cwd e ++ "/prelizrc") :: app data [conf] /\
      (posix_like e = true -> xdg_config e = None -> conf = home e ++ "/.config/preliz/prelizrc") /\
      (forall x, posix_like e = true -> xdg_config e = Some x -> conf = x ++ "/preliz/prelizrc") /\
      (posix_like e = false -> conf = home e ++ "/.preliz/prelizrc").
Proof.
  intro e. unfold candidates, join.
  assert (A : forall a b c : string, (a ++ b) ++ c = a ++ (b ++ c)) by (intros; apply app_assoc_s).
  exists (match arviz_data e with None => [] | Some d => if String.eqb d "" then [] else [d ++ "/prelizrc"] end).
  split.
  - destruct (arviz_data e) as [d|]; [|auto].
    destruct (String.eqb d "") eqn:E.
    + apply String.eqb_eq in E; subst; auto.
    + apply String.eqb_neq in E. right. exists d. auto.
  - eexists. split.
    + simpl. f_equal.
    + repeat split.
      * intros -> ->. rewrite !A. reflexivity.
      * intros x -> ->. rewrite !A. reflexivity.
      * intros ->. rewrite !A. reflexivity.
Qed.

Example C05_example :
  get_preliz_rcfile
    {| cwd := "/w"; arviz_data := Some "/d"; xdg_config := None; home := "/h"; posix_like := true |}
    (fun p => if String.eqb p "/w/prelizrc" then IsDir
              else if String.eqb p "/h/.config/preliz/prelizrc" then IsFile else Absent)
  = Some "/h/.config/preliz/prelizrc".
Proof. vm_compute; reflexivity. Qed.

Print Assumptions C05_first_existing_file.
Print Assumptions C01_iteration_sorted.
Print Assumptions C02_show_plot.
Print Assumptions C02_ci_prob.
Print Assumptions C02_ci_kind.
Print Assumptions C04_warnings_fail_refuted.
