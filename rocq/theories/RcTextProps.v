(** Property theorems for the text of the settings: C79. *)
From Coq Require Import List Bool Ascii String Arith ZArith QArith Lia.
From Verif Require Import Base RcModel RcSpec RcProofs RcProps RcTextModel.
Import ListNotations.
Open Scope string_scope.

(* ---------------- specification ---------------- *)
(** The three settings as a user reads them. *)
Definition holds (s : store) (show : bool) (kind : string) (prob : pyfloat) : Prop :=
  get "plots.show_plot" s = Some (VBool show) /\ get "stats.ci_kind" s = Some (VStr kind) /\ get "stats.ci_prob" s = Some (VFloat prob).
(** How Python writes and reads booleans and this number. *)
Definition python_text (fos : string -> option pyfloat) (str_of : pyval -> string) (prob : pyfloat) : Prop :=
  (forall b, str_of (VBool b) = if b then "True" else "False") /\
  fos (str_of (VFloat prob)) = Some prob /\ writable_val (str_of (VFloat prob)) /\ free_of newline (str_of (VFloat prob)).

(* ---------------- proofs ---------------- *)
Lemma sound_holds s : sound s -> exists b k f, holds s b k f /\ (k = "eti" \/ k = "hdi") /\ not_outside_unit f.
Proof.
  intros (_ & K & V). unfold holds.
  destruct (proj1 (K "plots.show_plot")) as [v1 E1]; [cbn; tauto|]. destruct (proj1 (K "stats.ci_kind")) as [v2 E2]; [cbn; tauto|].
  destruct (proj1 (K "stats.ci_prob")) as [v3 E3]; [cbn; tauto|].
  destruct (V _ _ E1) as [[X _]|[[X _]|[_ (b & ->)]]]; try discriminate X.
  destruct (V _ _ E2) as [[_ X2]|[[X _]|[X _]]]; try discriminate X.
  destruct (V _ _ E3) as [[X _]|[[_ (f & -> & Hf)]|[X _]]]; try discriminate X.
  destruct X2 as [->| ->]; [exists b, "eti", f|exists b, "hdi", f]; rewrite E1, E2, E3; repeat split; auto.
Qed.
Lemma sound_three s : sound s -> exists k1 v1 k2 v2 k3 v3, s = [(k1, v1); (k2, v2); (k3, v3)].
Proof.
  intros (N & K & _). assert (P : Permutation.Permutation known_keys (map fst s)).
  { apply Permutation.NoDup_Permutation; [|exact N|].
    - repeat constructor; cbn; intuition discriminate.
    - intro k. rewrite K. apply get_In. }
  apply Permutation.Permutation_length in P. rewrite map_length in P. destruct s as [|[k1 v1] [|[k2 v2] [|[k3 v3] [|? ?]]]]; try discriminate P.
  repeat eexists.
Qed.
Lemma sound_items s b k f : sound s -> holds s b k f ->
  items s = [("plots.show_plot", VBool b); ("stats.ci_kind", VStr k); ("stats.ci_prob", VFloat f)].
Proof.
  intros S (H1 & H2 & H3). destruct (sound_three s S) as (k1 & v1 & k2 & v2 & k3 & v3 & E). destruct S as (N & K & _). subst s.
  assert (I : forall k, In k known_keys <-> In k [k1; k2; k3]).
  { intro x. rewrite K, get_In. reflexivity. }
  assert (J1 : In k1 known_keys) by (apply I; cbn; tauto). assert (J2 : In k2 known_keys) by (apply I; cbn; tauto). assert (J3 : In k3 known_keys) by (apply I; cbn; tauto).
  clear I K. cbn in J1, J2, J3. cbn [map fst] in N.
  destruct J1 as [<-|[<-|[<-|[]]]]; destruct J2 as [<-|[<-|[<-|[]]]]; destruct J3 as [<-|[<-|[<-|[]]]];
    try (exfalso; inversion N as [|? ? X1 X2]; inversion X2 as [|? ? X3 X4]; subst; cbn in *; tauto);
    cbn in H1, H2, H3; injection H1 as ->; injection H2 as ->; injection H3 as ->; reflexivity.
Qed.

(** print(rcParams): the three settings, each on a line of its own, in the order of their names. *)
Theorem C79_text : forall fos str_of s prob, sound s -> get "stats.ci_prob" s = Some (VFloat prob) -> python_text fos str_of prob ->
  exists show kind, holds s show kind prob /\ rc_len s = 3%nat /\
    rc_str str_of s = "plots.show_plot       : " ++ (if show then "True" else "False") ++ String newline
                      ("stats.ci_kind         : " ++ kind ++ String newline ("stats.ci_prob         : " ++ str_of (VFloat prob))).
Proof.
  intros fos str s prob S Hp (B & _). destruct (sound_holds s S) as (b & k & f & H & _ & _). exists b, k.
  assert (f = prob) by (destruct H as (_ & _ & H); congruence). subst f. split; [exact H|]. split.
  - destruct (sound_three s S) as (? & ? & ? & ? & ? & ? & ->). reflexivity.
  - unfold rc_str. rewrite (sound_items s b k prob S H). cbn [map fst snd to_str join_lines]. rewrite B. destruct b; reflexivity.
Qed.

Lemma file_lines_app a r : free_of newline a -> a <> "" -> file_lines (a ++ String newline r) = (a ++ String newline "") :: file_lines r.
Proof.
  induction a as [|c a IH]; intros F N; [contradiction|]. destruct F as [F1 F2]. cbn [append file_lines].
  destruct (Ascii.eqb_spec c newline); [contradiction|]. destruct a as [|d a].
  - cbn. rewrite ?Ascii.eqb_refl. reflexivity.
  - rewrite IH by (auto; discriminate). reflexivity.
Qed.
Lemma file_lines_one a : free_of newline a -> a <> "" -> file_lines a = [a].
Proof.
  induction a as [|c a IH]; intros F N; [contradiction|]. destruct F as [F1 F2]. cbn [file_lines].
  destruct (Ascii.eqb_spec c newline); [contradiction|]. destruct a as [|d a]; [reflexivity|]. rewrite IH by (auto; discriminate). reflexivity.
Qed.
Lemma app_s a b c : ((a ++ b) ++ c = a ++ b ++ c)%string.
Proof. apply app_assoc_s. Qed.

(** What print(rcParams) shows can be saved as an rc file: reading it gives the same settings. *)
Theorem C79_reads_back : forall fos str_of s prob, sound s -> get "stats.ci_prob" s = Some (VFloat prob) -> python_text fos str_of prob ->
  exists c, rc_params fos str_of (Some (Lines (file_lines (rc_str str_of s)))) = Ok c /\ same_settings s c.
Proof.
  intros fos str s prob S Hp PT. destruct (sound_holds s S) as (b & k & f & H & Hk & Hf).
  assert (f = prob) by (destruct H as (_ & _ & H); congruence). subst f.
  pose proof PT as (B & Hf1 & Hw & Hn).
  assert (Hne : str (VFloat prob) <> "") by apply Hw.
  set (bt := if b then "True" else "False").
  set (es := [("plots.show_plot", bt); ("stats.ci_kind", k); ("stats.ci_prob", str (VFloat prob))]).
  set (l1 := "plots.show_plot       : " ++ bt). set (l2 := "stats.ci_kind         : " ++ k). set (l3 := "stats.ci_prob         : " ++ str (VFloat prob)).
  assert (T : rc_str str s = l1 ++ String newline (l2 ++ String newline l3)).
  { unfold rc_str. rewrite (sound_items s b k prob S H). cbn [map fst snd to_str join_lines]. rewrite B. unfold l1, l2, l3, bt. destruct b; reflexivity. }
  assert (FL : file_lines (rc_str str s) = [l1 ++ String newline ""; l2 ++ String newline ""; l3]).
  { rewrite T. assert (N1 : free_of newline l1) by (unfold l1, bt; destruct b; repeat (split; [discriminate|]); exact I).
    assert (N2 : free_of newline l2) by (unfold l2; destruct Hk as [-> | ->]; repeat (split; [discriminate|]); exact I).
    assert (N3 : free_of newline l3) by (unfold l3; repeat (split; [discriminate|]); exact Hn).
    rewrite file_lines_app by (exact N1 || discriminate). rewrite file_lines_app by (exact N2 || discriminate). rewrite file_lines_one by (exact N3 || discriminate). reflexivity. }
  assert (SP : spells (file_lines (rc_str str s)) es).
  { rewrite FL. unfold es, l1, l2, l3.
    pose proof (sp_entry "plots.show_plot" bt "" "       " " " (String newline "") "") as E1.
    pose proof (sp_entry "stats.ci_kind" k "" "         " " " (String newline "") "") as E2.
    pose proof (sp_entry "stats.ci_prob" (str (VFloat prob)) "" "         " " " "" "") as E3.
    assert (Ap : forall a, (a ++ "" = a)%string) by (induction a as [|c a IH]; cbn; congruence).
    cbn [append] in *. rewrite Ap in E3.
    assert (W : forall t, t <> "" -> trimmed t -> free_of hash_char t -> free_of colon_char t -> writable_key t) by (intros; repeat split; assumption).
    apply E1; [apply W; [discriminate|reflexivity|cbn; repeat split; discriminate|cbn; repeat split; discriminate]
              |unfold bt; destruct b; repeat split; discriminate|cbn; auto|cbn; tauto|cbn; auto|cbn; auto|left; reflexivity|].
    apply E2; [apply W; [discriminate|reflexivity|cbn; repeat split; discriminate|cbn; repeat split; discriminate]
              |destruct Hk as [-> | ->]; repeat split; discriminate|cbn; auto|cbn; tauto|cbn; auto|cbn; auto|left; reflexivity|].
    apply E3; [apply W; [discriminate|reflexivity|cbn; repeat split; discriminate|cbn; repeat split; discriminate]
              |exact Hw|cbn; auto|cbn; tauto|cbn; auto|cbn; auto|left; reflexivity|constructor]. }
  assert (X1 : setitem fos str "plots.show_plot" (VStr bt) [] = ([("plots.show_plot", VBool b)], None)) by (unfold bt; destruct b; reflexivity).
  assert (X2 : setitem fos str "stats.ci_kind" (VStr k) [] = ([("stats.ci_kind", VStr k)], None)) by (destruct Hk as [-> | ->]; reflexivity).
  assert (X3 : setitem fos str "stats.ci_prob" (VStr (str (VFloat prob))) [] = ([("stats.ci_prob", VFloat prob)], None)).
  { unfold setitem. cbn [validator String.eqb Ascii.eqb Bool.eqb]. unfold validator. cbn. unfold validate_probability, validate_float. cbn [py_float]. rewrite Hf1. cbn [bind].
    apply unit_dec in Hf. rewrite Hf. reflexivity. }
  destruct (C04_file_settings fos str _ es SP) as (c & R & G & _).
  { repeat constructor; cbn; intuition discriminate. }
  { intros x y [E|[E|[E|[]]]]; injection E as <- <-; eexists; cbn [exec]; [exact X1|exact X2|exact X3]. }
  assert (Hc : holds c b k prob).
  { repeat split.
    - rewrite (G "plots.show_plot" bt _ (or_introl eq_refl) X1). reflexivity.
    - rewrite (G "stats.ci_kind" k _ (or_intror (or_introl eq_refl)) X2). reflexivity.
    - rewrite (G "stats.ci_prob" _ _ (or_intror (or_intror (or_introl eq_refl))) X3). reflexivity. }
  unfold rc_params. rewrite R. cbn [bind].
  assert (AV : all_valid (items c)).
  { intros x y I. apply items_In in I. cbn [read_rcfile] in R. destruct Hc as (C1 & C2 & C3).
    destruct (in_dec string_dec x (map fst es)) as [J|J].
    - cbn in J. destruct J as [<-|[<-|[<-|[]]]].
      + rewrite C1 in I. injection I as <-. right. right. eauto.
      + rewrite C2 in I. injection I as <-. left. destruct Hk as [-> | ->]; auto.
      + rewrite C3 in I. injection I as <-. right. left. eauto.
    - exfalso. destruct (C04_file_settings fos str _ es SP) as (c' & R' & _ & G').
      { repeat constructor; cbn; intuition discriminate. }
      { intros u w [E|[E|[E|[]]]]; injection E as <- <-; eexists; cbn [exec]; [exact X1|exact X2|exact X3]. }
      cbn [read_rcfile] in R'. rewrite R in R'. injection R' as <-. rewrite G' in I by exact J. discriminate. }
  rewrite (update_valid fos str _ _ AV). eexists. split; [reflexivity|].
  assert (NI : NoDup (map fst (items c))).
  { apply items_keys. cbn [read_rcfile] in R. apply (read_lines_nodup fos str) in R; [exact R|constructor]. }
  assert (GI : forall x v, get x c = Some v -> get x (items c) = Some v) by (intros x v E; apply (In_get fos str); [exact NI|apply items_In; exact E]).
  intro x. rewrite get_fold_put by exact NI. destruct H as (C1 & C2 & C3). destruct Hc as (D1 & D2 & D3).
  destruct (in_dec string_dec x known_keys) as [J|J].
  - destruct J as [<-|[<-|[<-|[]]]]; [rewrite C2, (GI _ _ D2)|rewrite C3, (GI _ _ D3)|rewrite C1, (GI _ _ D1)]; reflexivity.
  - assert (Z : forall t, sound t -> get x t = None).
    { intros t (_ & K & _). destruct (get x t) eqn:E; [|reflexivity]. exfalso. apply J, K. eauto. }
    rewrite (Z s S). destruct (get x (items c)) eqn:E.
    + exfalso. apply get_In_pair in E. specialize (AV _ _ E). destruct AV as [[-> _]|[[-> _]|[-> _]]]; apply J; cbn; tauto.
    + symmetry. apply Z. apply defaults_sound.
Qed.

(** Reading one setting, and iterating over all of them. *)
Theorem C79_reading : forall s, sound s ->
  (forall k, In k known_keys -> exists v, rc_getitem s k = Ok v /\ valid_setting k v) /\
  (forall k, ~ In k known_keys -> rc_getitem s k = Err KeyError) /\
  rc_len s = List.length (iter_keys s) /\ rc_len s = List.length known_keys.
Proof.
  intros s S. pose proof S as (N & K & V). repeat split.
  - intros k J. apply K in J. destruct J as [v E]. exists v. unfold rc_getitem. rewrite E. auto.
  - intros k J. unfold rc_getitem. destruct (get k s) eqn:E; [|reflexivity]. exfalso. apply J, K. eauto.
  - unfold rc_len. rewrite (Permutation.Permutation_length (iter_keys_perm s)), map_length. reflexivity.
  - destruct (sound_three s S) as (? & ? & ? & ? & ? & ? & ->). reflexivity.
Qed.

(** Building the mapping: what is given is validated item by item, the first that is refused makes it fail, and no other keys
    are there. *)
Theorem C79_built : forall fos str_of l,
  (forall c, rc_init fos str_of l = Ok c ->
     forall k, match get k c with Some v => valid_setting k v /\ In k (map fst l) | None => ~ In k (map fst l) end) /\
  (forall e, rc_init fos str_of l = Err e -> exists before k v after s, l = (before ++ (k, v) :: after)%list /\
     update fos str_of before [] = (s, None) /\ setitem fos str_of k v s = (s, Some e)).
Proof.
  intros fos str l. unfold rc_init. split.
  - intros c H. destruct (update fos str l []) as [s [e|]] eqn:E; [discriminate|]. injection H as ->.
    assert (G : forall l s0 s1, update fos str l s0 = (s1, None) -> forall k,
      match get k s1 with Some v => (valid_setting k v /\ In k (map fst l)) \/ get k s0 = Some v | None => ~ In k (map fst l) /\ get k s0 = None end).
    { clear. induction l as [|[k v] l IH]; intros s0 s1 H x; cbn in H.
      - injection H as <-. destruct (get x s0); cbn; auto.
      - destruct (setitem fos str k v s0) as [s' [e|]] eqn:E; [discriminate|]. apply setitem_ok in E. destruct E as (f & w & F1 & F2 & ->).
        specialize (IH _ _ H x). cbn [map fst]. destruct (string_dec k x) as [->|Hk].
        + rewrite get_put_same in IH. destruct (get x s1) as [u|].
          * left. destruct IH as [[I1 I2]|I1]; [split; [exact I1|right; exact I2]|]. injection I1 as ->. split; [apply (validator_out fos str x f v u F1 F2)|left; reflexivity].
          * destruct IH as [_ IH]. discriminate.
        + rewrite get_put_other in IH by exact Hk. destruct (get x s1) as [u|].
          * destruct IH as [[I1 I2]|I1]; [left; split; [exact I1|right; exact I2]|right; exact I1].
          * destruct IH as [I1 I2]. split; [|exact I2]. intros [X|X]; [congruence|contradiction]. }
    intro k. specialize (G l [] c E k). destruct (get k c); [destruct G as [G|G]; [exact G|discriminate]|apply G].
  - intros e H. destruct (update fos str l []) as [s [e'|]] eqn:E; [|discriminate]. injection H as ->. revert E. generalize (@nil (string * pyval)) as s0.
    induction l as [|[k v] l IH]; intros s0 E; cbn in E; [discriminate|].
    destruct (setitem fos str k v s0) as [s' [e1|]] eqn:E1.
    + injection E as -> ->. pose proof (setitem_err fos str k v s0 s e E1) as ->. exists [], k, v, l, s0. repeat split; auto.
    + destruct (IH s' E) as (b & k' & v' & a & t & -> & U & X). exists ((k, v) :: b), k', v', a, t. cbn. rewrite E1. auto.
Qed.

(* ---------------- examples ---------------- *)
Definition text_fos (t : string) : option pyfloat := if String.eqb t "0.5" then Some (FQ (1 # 2)) else None.
Definition text_str (v : pyval) : string := match v with VBool true => "True" | VBool false => "False" | VFloat _ => "0.5" | _ => "None" end.
Definition text_store : store := [("stats.ci_prob", VFloat (FQ (1 # 2))); ("plots.show_plot", VBool false); ("stats.ci_kind", VStr "hdi")].
Example C79_applies : sound text_store /\ python_text text_fos text_str (FQ (1 # 2)) /\
  rc_params text_fos text_str (Some (Lines (file_lines (rc_str text_str text_store)))) =
    Ok [("stats.ci_kind", VStr "hdi"); ("stats.ci_prob", VFloat (FQ (1 # 2))); ("plots.show_plot", VBool false)] /\
  rc_init text_fos text_str [("stats.ci_kind", VStr "HDI")] = Ok [("stats.ci_kind", VStr "hdi")] /\
  rc_init text_fos text_str [("stats.ci_kind", VStr "HDI"); ("stats.ci_prob", VStr "x")] = Err ValueError.
Proof.
  split; [|split; [|split; [|split]]]; try (vm_compute; reflexivity).
  - split; [repeat constructor; cbn; intuition discriminate|]. split.
    + intro k. rewrite get_In. cbn. tauto.
    + intros k v H. apply get_In_pair in H. cbn in H. destruct H as [H|[H|[H|[]]]]; injection H as <- <-; unfold valid_setting.
      * right. left. split; [reflexivity|]. eexists. split; [reflexivity|]. split; intro X; discriminate X.
      * right. right. eauto.
      * left. auto.
  - split; [intros [|]; reflexivity|]. split; [reflexivity|]. repeat split; discriminate.
Qed.

Print Assumptions C79_text.
Print Assumptions C79_reads_back.
Print Assumptions C79_reading.
Print Assumptions C79_built.
