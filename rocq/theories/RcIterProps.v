(** C79, continued: settings that are sequences. *)
From Coq Require Import List Bool Ascii String Arith ZArith Lia.
From Verif Require Import Base TextModel RcIterModel.
Import ListNotations.

(** An entry that can be written between commas: no comma, something else than blanks, no bracket or blank at its ends. *)
Definition entry_text (t : text) : Prop :=
  ~ In c_comma t /\ (exists c, In c t /\ is_space c = false) /\
  (forall c r, t = c :: r -> bracket c = false) /\ (forall c r, t = (r ++ [c])%list -> bracket c = false).
(** Texts with commas between them. *)
Fixpoint commas (l : list text) : text :=
  match l with [] => [] | [x] => x | x :: r => (x ++ c_comma :: commas r)%list end.
(** An entry with brackets and blanks before and after it. *)
Definition dressed (p : text * text * text) : text := let '(a, t, b) := p in (a ++ t ++ b)%list.
Definition only_brackets (t : text) : Prop := forall c, In c t -> bracket c = true.

Lemma split_app p r : ~ In c_comma p -> split_on c_comma (p ++ c_comma :: r) = p :: split_on c_comma r.
Proof.
  induction p as [|c p IH]; cbn [app split_on]; intro H; [reflexivity|].
  destruct (Ascii.eqb c c_comma) eqn:E; [apply Ascii.eqb_eq in E; subst c; exfalso; apply H; now left|].
  rewrite IH; [reflexivity|intro; apply H; now right].
Qed.
Lemma split_one p : ~ In c_comma p -> split_on c_comma p = [p].
Proof.
  induction p as [|c p IH]; cbn [split_on]; intro H; [reflexivity|].
  destruct (Ascii.eqb c c_comma) eqn:E; [apply Ascii.eqb_eq in E; subst c; exfalso; apply H; now left|].
  rewrite IH; [reflexivity|intro; apply H; now right].
Qed.
Lemma split_commas l : l <> [] -> (forall p, In p l -> ~ In c_comma p) -> split_on c_comma (commas l) = l.
Proof.
  induction l as [|x l IH]; intros N H; [now contradiction N|]. destruct l as [|y l].
  - apply split_one, H. now left.
  - change (commas (x :: y :: l)) with (x ++ c_comma :: commas (y :: l))%list. rewrite split_app by (apply H; now left).
    rewrite IH; [reflexivity|discriminate|intros; apply H; now right].
Qed.
Lemma lstrip_only p a s : (forall c, In c a -> p c = true) -> lstrip_set p (a ++ s) = lstrip_set p s.
Proof.
  induction a as [|c a IH]; cbn; intro H; [reflexivity|]. rewrite (H c) by now left. apply IH. intros; apply H; now right.
Qed.
Lemma lstrip_stop p c r : p c = false -> lstrip_set p (c :: r) = c :: r.
Proof. cbn. now intros ->. Qed.
Lemma strip_dressed a t b : only_brackets a -> only_brackets b -> t <> [] ->
  (forall c r, t = c :: r -> bracket c = false) -> (forall c r, t = (r ++ [c])%list -> bracket c = false) ->
  strip_set bracket (a ++ t ++ b) = t.
Proof.
  intros A B N F L. unfold strip_set. rewrite lstrip_only by exact A.
  destruct t as [|c t]; [now contradiction N|]. cbn [app]. rewrite lstrip_stop by (eapply F; reflexivity).
  change (c :: t ++ b)%list with ((c :: t) ++ b)%list. rewrite rev_app_distr, lstrip_only by (intros x X; apply B, in_rev, X).
  destruct (rev (c :: t)) as [|z u] eqn:E.
  - apply (f_equal (@List.length ascii)) in E. rewrite rev_length in E. discriminate.
  - rewrite lstrip_stop.
    + rewrite <- E, rev_involutive. reflexivity.
    + eapply L. rewrite <- (rev_involutive (c :: t)), E. cbn. reflexivity.
Qed.
Lemma lstrip_keeps s c : In c s -> is_space c = false -> In c (lstrip s).
Proof.
  induction s as [|x s IH]; cbn; [tauto|]. intros I H. destruct (is_space x) eqn:E; [|exact I].
  destruct I as [->|I]; [congruence|now apply IH].
Qed.
Lemma strip_not_blank s c : In c s -> is_space c = false -> strip s <> [].
Proof.
  intros I H E. unfold strip in E. apply (f_equal (@List.length ascii)) in E. rewrite rev_length in E.
  assert (J : In c (lstrip (rev (lstrip s)))) by (apply lstrip_keeps; [apply -> in_rev; apply lstrip_keeps; assumption|exact H]).
  destruct (lstrip (rev (lstrip s))); [destruct J|discriminate].
Qed.
Lemma not_comma a : only_brackets a -> ~ In c_comma a.
Proof. intros A I. apply A in I. discriminate I. Qed.

Lemma pieces_commas l : l <> [] ->
  (forall a t b, In (a, t, b) l -> entry_text t /\ only_brackets a /\ only_brackets b) ->
  pieces (commas (map dressed l)) = map (fun p => snd (fst p)) l.
Proof.
  intros N H. unfold pieces. rewrite split_commas.
  - clear N. induction l as [|[[a t] b] l IH]; [reflexivity|]. cbn [map filter].
    destruct (H a t b (or_introl eq_refl)) as ((NC & (c & I & S) & F & L) & A & B).
    destruct (strip (dressed (a, t, b))) eqn:E.
    + exfalso. revert E. apply strip_not_blank with c; [|exact S]. cbn. apply in_or_app. right. apply in_or_app. now left.
    + cbn [map]. f_equal.
      * cbn [dressed fst snd]. apply strip_dressed; try assumption. intro T. rewrite T in I. destruct I.
      * apply IH. intros; apply H; now right.
  - destruct l; [now contradiction N|discriminate].
  - intros p P. apply in_map_iff in P. destruct P as ([[a t] b] & <- & I). destruct (H a t b I) as ((NC & _) & A & B). cbn.
    rewrite !in_app_iff. intros [J|[J|J]]; [now apply (not_comma a)|now apply NC|now apply (not_comma b)].
Qed.
(** A sequence written as text, its entries separated by commas with any blanks and brackets around them, is validated as
    the sequence of the entries would be. *)
Theorem C79_written_sequence check len allow_none allow_auto l : l <> [] ->
  (forall a t b, In (a, t, b) l -> entry_text t /\ only_brackets a /\ only_brackets b) ->
  let written := commas (map dressed l) in
  (allow_none = true -> lower_text written <> word "none") -> (allow_auto = true -> lower_text written <> word "auto") ->
  validate_iterable check len allow_none allow_auto (VText written) =
  validate_iterable check len allow_none allow_auto (VItems (map (fun p => VText (snd (fst p))) l)).
Proof.
  intros N H written A B. unfold validate_iterable, text_eqb.
  assert (E1 : allow_none && (if list_eq_dec ascii_dec (lower_text written) (word "none") then true else false) = false).
  { destruct allow_none; [|reflexivity]. destruct (list_eq_dec ascii_dec (lower_text written) (word "none")) as [Q|]; [exfalso; exact (A eq_refl Q)|reflexivity]. }
  assert (E2 : allow_auto && (if list_eq_dec ascii_dec (lower_text written) (word "auto") then true else false) = false).
  { destruct allow_auto; [|reflexivity]. destruct (list_eq_dec ascii_dec (lower_text written) (word "auto")) as [Q|]; [exfalso; exact (B eq_refl Q)|reflexivity]. }
  rewrite E1, E2, andb_false_r. unfold written. rewrite pieces_commas by assumption. rewrite map_map. reflexivity.
Qed.
(** What is accepted: a sequence of the required length each of whose entries the validator accepts; the result holds what
    the validator gave, in the same order. Sets and things that are not sequences are refused. *)
Theorem C79_sequence check len allow_none allow_auto l r :
  validate_iterable check len allow_none allow_auto (VItems l) = Ok r <->
  exists l', r = VItems l' /\ Forall2 (fun v w => check v = Ok w) l l' /\ (forall n, len = Some n -> List.length l = n).
Proof.
  unfold validate_iterable. rewrite andb_false_r. cbn [validate_items].
  assert (C : forall l l', check_all check l = Ok l' <-> Forall2 (fun v w => check v = Ok w) l l').
  { clear. induction l as [|v l IH]; intro l'; cbn.
    - split; [intros [= <-]; constructor|intro H; inversion H; reflexivity].
    - destruct (check v) as [w|] eqn:E; cbn; [|split; [discriminate|intro H; inversion H; congruence]].
      destruct (check_all check l) as [ws|e] eqn:E2; cbn.
      + split; [intros [= <-]; constructor; [exact E|now apply IH]|]. intro H. inversion H; subst. rewrite E in H2. injection H2 as <-.
        apply IH in H4. injection H4 as <-. reflexivity.
      + split; [discriminate|]. intro H. inversion H; subst. apply IH in H4. discriminate. }
  destruct (check_all check l) as [val|e] eqn:E; cbn [bind].
  - pose proof (proj1 (C l val) E) as F. assert (LL : List.length val = List.length l) by (clear -F; induction F; cbn; congruence).
    destruct len as [n|].
    + destruct (Nat.eqb (List.length val) n) eqn:Q.
      * apply Nat.eqb_eq in Q. split; [intros [= <-]; exists val; split; [reflexivity|split; [exact F|intros m [= <-]; lia]]|].
        intros (l' & -> & F' & _). apply C in F'. rewrite E in F'. now injection F' as <-.
      * apply Nat.eqb_neq in Q. split; [discriminate|]. intros (l' & -> & F' & K). specialize (K n eq_refl). lia.
    + split; [intros [= <-]; exists val; split; [reflexivity|split; [exact F|discriminate]]|].
      intros (l' & -> & F' & _). apply C in F'. rewrite E in F'. now injection F' as <-.
  - split; [discriminate|]. intros (l' & -> & F' & _). apply C in F'. congruence.
Qed.
Theorem C79_not_a_sequence check len allow_none allow_auto v :
  match v with VSet _ | VAtom _ => True | VNone => allow_none = false | _ => False end ->
  validate_iterable check len allow_none allow_auto v = Err ValueError.
Proof.
  destruct v; cbn; try tauto; unfold validate_iterable; cbn; intro H; rewrite ?andb_false_r; try reflexivity. now rewrite H.
Qed.
(** The texts Python shows for an empty tuple or list and for a tuple of one entry are not read back: brackets alone, and
    what follows the last comma, count as an empty entry. *)
Theorem C79_written_sequence_refuted check allow_none allow_auto t : entry_text t ->
  let read s := validate_iterable check None allow_none allow_auto (VText s) in
  let given l := validate_iterable check None allow_none allow_auto (VItems l) in
  read (word "()") = given [VText []] /\ read (word "[]") = given [VText []] /\
  read (word "(" ++ t ++ word ",)")%list = given [VText t; VText []] /\
  read [] = given [].
Proof.
  intros (NC & (c & I & S) & F & L) read given. unfold read, given, validate_iterable.
  assert (E : forall b w s, (exists z, In z s /\ ~ In (lower_char z) w) -> b && text_eqb (lower_text s) w = false).
  { intros b w s (z & Z & W). unfold text_eqb. destruct (list_eq_dec _ _ _) as [Q|]; [|apply andb_false_r].
    exfalso. apply W. rewrite <- Q. apply in_map, Z. }
  split; [|split; [|split]].
  - rewrite !E by (exists "("%char; split; [now left|cbn; intuition discriminate]). rewrite andb_false_r. reflexivity.
  - rewrite !E by (exists "["%char; split; [now left|cbn; intuition discriminate]). rewrite andb_false_r. reflexivity.
  - rewrite !E by (exists "("%char; split; [now left|cbn; intuition discriminate]). rewrite andb_false_r.
    assert (P : pieces (word "(" ++ t ++ word ",)") = [t; []]); [|now rewrite P].
    unfold pieces. replace (word "(" ++ t ++ word ",)")%list with ((word "(" ++ t) ++ c_comma :: word ")")%list by (rewrite <- app_assoc; reflexivity).
    rewrite split_app by (rewrite in_app_iff; intros [[Q|[]]|Q]; [discriminate|now apply NC]).
    change (split_on c_comma (word ")")) with [word ")"]. cbn [filter].
    destruct (strip (word "(" ++ t)) eqn:Q; [exfalso; revert Q; apply strip_not_blank with c; [apply in_or_app; now right|exact S]|].
    change (strip (word ")")) with (word ")"). cbn [word list_ascii_of_string map]. f_equal.
    change (["("%char] ++ t)%list with (word "(" ++ t)%list. rewrite <- (app_nil_r t) at 1. apply strip_dressed; try assumption.
    + intros z [<-|[]]. reflexivity.
    + intros z [].
    + intros ->. destruct I.
  - rewrite andb_false_r. assert (X : forall w b, w <> [] -> b && text_eqb (lower_text []) w = false).
    { intros w b W. unfold text_eqb. cbn. destruct w; [now contradiction W|apply andb_false_r]. }
    rewrite !X by discriminate. rewrite ?andb_false_r; reflexivity.
Qed.
Example C79_written_sequence_applies : entry_text (word "0.5") /\
  commas (map dressed [(word "(", word "0.5", []); (word " ", word "0.9", word ")")]) = word "(0.5, 0.9)".
Proof.
  split; [|reflexivity]. split; [cbn; intuition discriminate|]. split; [exists "0"%char; split; [now left|reflexivity]|].
  split; [intros c r [= <- <-]; reflexivity|]. intros c r H. apply (f_equal (@rev ascii)) in H. rewrite rev_app_distr in H. cbn in H. injection H as <- _. reflexivity.
Qed.
Print Assumptions C79_written_sequence.
Print Assumptions C79_sequence.
Print Assumptions C79_not_a_sequence.
Print Assumptions C79_written_sequence_refuted.
