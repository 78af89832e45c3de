(** C81: citations returns the entries of what is cited, complete and unchanged. *)
From Coq Require Import List Bool Ascii String Arith Lia Permutation.
From Verif Require Import Base TextModel TextProps PplModel ReModel ReProofs SourceProofs CiteModel RefBib.
Import ListNotations.
Open Scope list_scope.

(* ---------------- specification ---------------- *)
(** A bibliography: entries with a type, a key and a body, and anything without "@" around them. *)
Record entry := mkEntry { e_type : text; e_key : text; e_body : text }.
Definition closing : text := [c_newline; "}"%char].
Definition show_entry (e : entry) : text := "@"%char :: e_type e ++ "{"%char :: e_key e ++ ","%char :: e_body e ++ closing.
Fixpoint show_bib (l : list (entry * text)) : text := match l with [] => [] | (e, sep) :: r => show_entry e ++ sep ++ show_bib r end.
Definition key_char (c : ascii) : bool := is_word c || Ascii.eqb c "-" || Ascii.eqb c ":" || Ascii.eqb c "/".
Definition good_entry (e : entry) : Prop :=
  forallb is_word (e_type e) = true /\ e_type e <> [] /\ forallb key_char (e_key e) = true /\ e_key e <> [] /\ ~ In "@"%char (e_body e) /\
  (forall a b, e_body e ++ closing = a ++ closing ++ b -> b = []).
Definition good_bib (l : list (entry * text)) : Prop :=
  Forall (fun es => good_entry (fst es) /\ ~ In "@"%char (snd es)) l /\ NoDup (map (fun es => e_key (fst es)) l).
(** A docstring cites a key in one of four ways. *)
Definition roles : list text := map txt [":cite:t:"; ":cite:p:"; ":footcite:t:"; ":footcite:p:"]%string.
Definition cites_at (d before role key after : text) : Prop :=
  d = before ++ role ++ c_tick :: key ++ c_tick :: after /\ In role roles /\ ~ In c_tick key /\ ~ In c_newline key.
Definition cites (d key : text) : Prop := exists before role after, cites_at d before role key after.
(** The order of a set: what is given, each element once. *)
Definition set_order (order : list text -> list text) : Prop := forall l, NoDup (order l) /\ forall k, In k (order l) <-> In k l.

(* ---------------- one entry ---------------- *)
Lemma key_no_comma k : forallb key_char k = true -> ~ In ","%char k.
Proof. intros H. apply (forallb_not_in key_char); [exact H|reflexivity]. Qed.
Lemma key_no_space k c : forallb key_char k = true -> In c k -> is_space c = false.
Proof.
  intros H I. rewrite forallb_forall in H. specialize (H c I). unfold key_char in H. rewrite !orb_true_iff in H.
  destruct H as [[[H|H]|H]|H]; [apply word_not_space, H| | |]; apply Ascii.eqb_eq in H; subst; reflexivity.
Qed.
Lemma lang_cat_inv a b u : lang (Cat a b) u -> exists v w, u = v ++ w /\ lang a v /\ lang b w.
Proof. intros H. inversion H; subst. eauto. Qed.
Lemma lang_group_inv n a u : lang (Group n a) u -> lang a u.
Proof. intros H. inversion H; subst. assumption. Qed.
Lemma words_until u v t t' : forallb is_word u = true -> forallb is_word v = true -> u ++ "{"%char :: t = v ++ "{"%char :: t' -> u = v /\ t = t'.
Proof.
  revert v. induction u as [|c u IH]; intros [|d v] Hu Hv E; cbn [forallb app] in *.
  - injection E as E. auto.
  - injection E as <- E. discriminate.
  - injection E as -> E. discriminate.
  - injection E as <- E. apply andb_true_iff in Hu as [_ Hu], Hv as [_ Hv]. destruct (IH v Hu Hv E) as [-> ->]. auto.
Qed.
Lemma upto_comma u v t t' : ~ In ","%char u -> ~ In ","%char v -> u ++ ","%char :: t = v ++ ","%char :: t' -> u = v /\ t = t'.
Proof.
  revert v. induction u as [|c u IH]; intros [|d v] Hu Hv E; cbn [In app] in *.
  - injection E as E. auto.
  - injection E as <- E. exfalso. apply Hv. auto.
  - injection E as -> E. exfalso. apply Hu. auto.
  - injection E as <- E. destruct (IH v) as [-> ->]; auto.
Qed.
Lemma spaces_no_comma sp : forallb is_space sp = true -> ~ In ","%char sp.
Proof. intros H. apply (forallb_not_in is_space); [exact H|reflexivity]. Qed.
(** The pattern for a key does not match where another entry starts. *)
Lemma entry_other key e t p : forallb key_char key = true -> good_entry e -> e_key e <> key ->
  here (entry_of key) {| prev := p; rest := show_entry e ++ t; caps := [] |} = None.
Proof.
  intros K (T1 & T2 & K1 & K2 & _) N. destruct (here _ _) as [m|] eqn:H; [exfalso|reflexivity].
  unfold here in H. apply run_moved in H as (s1 & (u & E & L & _) & _). cbn [rest] in E.
  apply lang_group_inv in L. unfold some, any in L.
  apply lang_cat_inv in L as (u1 & u2 & -> & L1 & L). apply lit_lang in L1 as ->.
  apply lang_cat_inv in L as (u3 & u4 & -> & L3 & L). apply some_lang in L3 as [L3 _].
  apply lang_cat_inv in L as (u5 & u6 & -> & L5 & L). apply lit_lang in L5 as ->.
  apply lang_cat_inv in L as (u7 & u8 & -> & L7 & L). apply many_chr_lang in L7.
  apply lang_cat_inv in L as (u9 & u10 & -> & L9 & L). apply lit_lang in L9 as ->.
  apply lang_cat_inv in L as (u11 & u12 & -> & L11 & L). apply many_chr_lang in L11.
  apply lang_cat_inv in L as (u13 & u14 & -> & L13 & _). apply lit_lang in L13 as ->.
  unfold show_entry in E. cbn [txt list_ascii_of_string app] in E. injection E as E. rewrite <- !app_assoc in E. cbn [app] in E.
  rewrite <- !app_assoc in E. cbn [app] in E.
  apply words_until in E; [|assumption|assumption]. destruct E as [_ E]. rewrite <- !app_assoc in E. cbn [app] in E.
  assert (E' : e_key e ++ ","%char :: (e_body e ++ closing ++ t) = ((u7 ++ key) ++ u11) ++ ","%char :: (u14 ++ rest s1)).
  { rewrite <- !app_assoc. cbn [app txt list_ascii_of_string] in E |- *. exact E. }
  apply upto_comma in E'; [|apply key_no_comma, K1|].
  - destruct E' as [E' _]. destruct u7 as [|c u7].
    + destruct u11 as [|c u11]; [rewrite app_nil_r in E'; contradiction|].
      assert (I : In c (e_key e)) by (rewrite E'; apply in_or_app; right; left; reflexivity).
      apply (key_no_space _ _ K1) in I. cbn in L11. rewrite I in L11. discriminate.
    + assert (I : In c (e_key e)) by (rewrite E'; left; reflexivity). apply (key_no_space _ _ K1) in I. cbn in L7. rewrite I in L7. discriminate.
  - intros I. rewrite !in_app_iff in I. destruct I as [[I|I]|I]; [apply spaces_no_comma in I; auto|apply key_no_comma in I; auto|apply spaces_no_comma in I; auto].
Qed.
Lemma entry_not_here key c t p : c <> "@"%char -> here (entry_of key) {| prev := p; rest := c :: t; caps := [] |} = None.
Proof.
  intros N. unfold here, entry_of. cbn [run prev rest caps lit txt list_ascii_of_string]. destruct (Ascii.eqb_spec "@"%char c); [congruence|reflexivity].
Qed.
Lemma key_stops key t : forallb key_char key = true -> key <> [] -> stops is_space (key ++ t).
Proof. intros H N. destruct key as [|c key]; [congruence|]. cbn. apply (key_no_space _ _ H). left. reflexivity. Qed.
Lemma entry_here e t p : good_entry e ->
  exists m, here (entry_of (e_key e)) {| prev := p; rest := show_entry e ++ t; caps := [] |} = Some m /\ group m 1 = show_entry e.
Proof.
  intros (T1 & T2 & K1 & K2 & _ & B). unfold here. cbn [prev rest caps]. set (s := {| prev := p; rest := show_entry e ++ t; caps := [] |}).
  set (k := fun s1 : state => Some _).
  set (w := show_entry e).
  assert (R : forall x, k (capture s (past s w t) 1) = Some x -> run (entry_of (e_key e)) s k = Some x).
  { intros x Hx. unfold entry_of. rewrite run_group.
    set (k2 := fun s1 : state => k (capture s s1 1)).
    assert (E : rest s = "@"%char :: e_type e ++ "{"%char :: e_key e ++ ","%char :: e_body e ++ closing ++ t).
    { unfold s, show_entry. cbn [rest app]. rewrite <- !app_assoc. cbn [app]. rewrite <- !app_assoc. cbn [app]. rewrite <- !app_assoc. reflexivity. }
    rewrite run_cat, (lit_some (txt "@") _ s _ E). rewrite run_cat.
    eapply some_some; [reflexivity|exact T2|exact T1|reflexivity|]. rewrite past_join by reflexivity.
    rewrite run_cat, (lit_some (txt "{") (e_key e ++ ","%char :: e_body e ++ closing ++ t)) by reflexivity. rewrite past_join by reflexivity.
    rewrite run_cat. eapply (greedy_some _ _ []); [reflexivity|reflexivity|apply key_stops; assumption|]. rewrite past_join by reflexivity.
    rewrite run_cat, (lit_some (e_key e) (","%char :: e_body e ++ closing ++ t)) by reflexivity. rewrite past_join by reflexivity.
    rewrite run_cat. eapply (greedy_some _ _ []); [reflexivity|reflexivity|reflexivity|]. rewrite past_join by reflexivity.
    rewrite run_cat, (lit_some (txt ",") (e_body e ++ closing ++ t)) by reflexivity. rewrite past_join by reflexivity.
    rewrite run_cat. eapply (lazy_some _ _ (e_body e) (closing ++ t)); [reflexivity|apply forallb_forall; reflexivity| |].
    - intros a b Eb Nb. apply lit_none. intros v Hv. rewrite past_rest in Hv.
      assert (Hv' : exists z, b ++ closing = closing ++ z /\ z <> []).
      { destruct b as [|c1 b]; [congruence|]. cbn [app closing] in Hv. injection Hv as -> Hv. destruct b as [|c2 b]; cbn [app] in Hv.
        - injection Hv as H1 H2. discriminate H1.
        - injection Hv as -> Hv. exists (b ++ closing). split; [reflexivity|]. destruct b; discriminate. }
      destruct Hv' as (z & Hz & Nz). apply Nz, (B a). rewrite Eb, <- app_assoc, Hz. reflexivity.
    - rewrite past_join by reflexivity. rewrite (lit_some closing t) by reflexivity. rewrite past_join by reflexivity.
      unfold k2. rewrite <- Hx. f_equal. f_equal. f_equal. unfold w, show_entry. cbn [txt list_ascii_of_string]. rewrite !app_nil_r. cbn [app]. rewrite <- !app_assoc. cbn [app]. rewrite <- ?app_assoc. reflexivity. }
  eexists. split; [apply R; unfold k; reflexivity|]. unfold group, capture, past. cbn [groups caps find fst snd Nat.eqb rest s].
  unfold w. apply firstn_past.
Qed.
(* ---------------- the whole bibliography ---------------- *)
Lemma plain_not_here key u t : ~ In "@"%char u -> forall a b q, u = a ++ b -> b <> [] -> here (entry_of key) {| prev := q; rest := b ++ t; caps := [] |} = None.
Proof.
  intros N a b q E Nb. destruct b as [|c b]; [congruence|]. apply entry_not_here. intros ->. apply N. rewrite E. apply in_or_app. right. left. reflexivity.
Qed.
Lemma entry_tail e a b : good_entry e -> show_entry e = a ++ b -> a <> [] -> ~ In "@"%char b.
Proof.
  intros (T1 & _ & K1 & _ & B1 & _) E N I. destruct a as [|c a]; [congruence|]. unfold show_entry in E. cbn in E. injection E as _ E.
  assert (J : In "@"%char (e_type e ++ "{"%char :: e_key e ++ ","%char :: e_body e ++ closing)) by (rewrite E; apply in_or_app; right; exact I).
  rewrite in_app_iff in J. cbn [In] in J. rewrite in_app_iff in J. cbn [In] in J. rewrite in_app_iff in J.
  assert (X1 : ~ In "@"%char (e_type e)) by (apply (forallb_not_in is_word); [exact T1|reflexivity]).
  assert (X2 : ~ In "@"%char (e_key e)) by (apply (forallb_not_in key_char); [exact K1|reflexivity]).
  cbn in J. repeat (destruct J as [J|J]; try discriminate; try contradiction).
Qed.
Lemma search_plain key u p t : ~ In "@"%char u -> exists q, search_from (entry_of key) p (u ++ t) =
    match search_from (entry_of key) q t with
    | Some m => Some {| skipped := u ++ skipped m; whole := whole m; groups := groups m; after := after m |} | None => None end.
Proof. intros N. apply search_skip. apply plain_not_here, N. Qed.
Lemma search_entry_other key e p t : forallb key_char key = true -> good_entry e -> e_key e <> key ->
  exists q, search_from (entry_of key) p (show_entry e ++ t) =
    match search_from (entry_of key) q t with
    | Some m => Some {| skipped := show_entry e ++ skipped m; whole := whole m; groups := groups m; after := after m |} | None => None end.
Proof.
  intros K G N. apply search_skip. intros a b q E Nb. destruct a as [|c a].
  - cbn in E. subst b. apply entry_other; assumption.
  - assert (I : ~ In "@"%char b) by (apply (entry_tail e (c :: a)); [exact G|exact E|discriminate]). destruct b as [|d b]; [congruence|].
    apply entry_not_here. intros ->. apply I. left. reflexivity.
Qed.
Lemma search_found l : forall u p e sep, Forall (fun es => good_entry (fst es) /\ ~ In "@"%char (snd es)) l -> NoDup (map (fun es => e_key (fst es)) l) ->
  ~ In "@"%char u -> In (e, sep) l -> exists m, search_from (entry_of (e_key e)) p (u ++ show_bib l) = Some m /\ group m 1 = show_entry e.
Proof.
  induction l as [|[e' sep'] l IH]; intros u p e sep F D Hu I; [destruct I|]. inversion F as [|? ? [G S'] F']; subst. cbn [fst snd map] in *. inversion D as [|? ? D1 D2]; subst.
  cbn [show_bib]. destruct (search_plain (e_key e) u p (show_entry e' ++ sep' ++ show_bib l) Hu) as (q & ->). destruct I as [I|I].
  - injection I as -> ->. destruct (entry_here e (sep ++ show_bib l) q G) as (m & Hm & Gm). rewrite (search_here _ _ _ _ Hm).
    eexists. split; [reflexivity|]. exact Gm.
  - assert (Ge : good_entry e) by (rewrite Forall_forall in F'; apply (F' _ I)).
    assert (N : e_key e' <> e_key e). { intros E. apply D1. rewrite E. apply (in_map (fun es => e_key (fst es)) _ _ I). }
    destruct (search_entry_other (e_key e) e' q (sep' ++ show_bib l)) as (q2 & ->); [apply Ge|exact G|exact N|].
    destruct (IH sep' q2 e sep F' D2 S' I) as (m & Hm & Gm). rewrite Hm. eexists. split; [reflexivity|]. exact Gm.
Qed.
Lemma search_missing l : forall u p key, Forall (fun es => good_entry (fst es) /\ ~ In "@"%char (snd es)) l -> forallb key_char key = true ->
  ~ In "@"%char u -> ~ In key (map (fun es => e_key (fst es)) l) -> search_from (entry_of key) p (u ++ show_bib l) = None.
Proof.
  induction l as [|[e' sep'] l IH]; intros u p key F K Hu N; cbn [show_bib].
  - apply search_none. intros a b q E. rewrite app_nil_r in E. destruct b as [|c b]; [unfold here, entry_of; reflexivity|].
    apply entry_not_here. intros ->. apply Hu. rewrite E. apply in_or_app. right. left. reflexivity.
  - inversion F as [|? ? [G S'] F']; subst. cbn [fst snd map In] in *.
    destruct (search_plain key u p (show_entry e' ++ sep' ++ show_bib l) Hu) as (q & ->).
    destruct (search_entry_other key e' q (sep' ++ show_bib l)) as (q2 & ->); [exact K|exact G|tauto|]. rewrite IH; [reflexivity|assumption|assumption|assumption|tauto].
Qed.
Lemma refs_found start l keys es : ~ In "@"%char start -> good_bib l -> Forall2 (fun k e => e_key e = k /\ In e (map fst l)) keys es ->
  citation_bibtex (start ++ show_bib l) keys = Ok (join_nl (map show_entry es)).
Proof.
  intros Hs [F D] H. unfold citation_bibtex. assert (E : refs (start ++ show_bib l) keys = Ok (map show_entry es)); [|rewrite E; reflexivity].
  induction H as [|k e keys es [Hk He] H IH]; [reflexivity|]. cbn [refs map]. subst k. apply in_map_iff in He as ([e' sep] & E & I). cbn in E. subst e'.
  unfold search. destruct (search_found l start None e sep F D Hs I) as (m & Hm & Gm). rewrite Hm, IH, Gm. reflexivity.
Qed.
Lemma refs_missing start l keys key : ~ In "@"%char start -> good_bib l -> In key keys -> forallb key_char key = true ->
  ~ In key (map (fun es => e_key (fst es)) l) -> Forall (fun k => forallb key_char k = true) keys -> citation_bibtex (start ++ show_bib l) keys = Err AttributeError.
Proof.
  intros Hs [F D] I K N A. unfold citation_bibtex. assert (E : refs (start ++ show_bib l) keys = Err AttributeError); [|rewrite E; reflexivity].
  induction A as [|k keys Hk A IH]; [destruct I|]. cbn [refs]. unfold search in *. destruct I as [->|I].
  - rewrite (search_missing l start None key F K Hs N). reflexivity.
  - destruct (search_from _ _ _); [rewrite (IH I)|]; reflexivity.
Qed.

(* ---------------- citations("all") ---------------- *)
Lemma all_not_here c t p : c <> "@"%char -> here all_keys {| prev := p; rest := c :: t; caps := [] |} = None.
Proof. intros N. unfold here, all_keys. cbn [run prev rest caps lit txt list_ascii_of_string]. destruct (Ascii.eqb_spec "@"%char c); [congruence|reflexivity]. Qed.
Lemma word_no_newline u : forallb is_word u = true -> forallb (fun c => negb (Ascii.eqb c c_newline)) u = true.
Proof. intros H. apply dots_not_in. apply (forallb_not_in is_word); [exact H|reflexivity]. Qed.
Lemma all_here e t p : good_entry e -> exists m, here all_keys {| prev := p; rest := show_entry e ++ t; caps := [] |} = Some m /\
  group m 1 = e_key e /\ rest (after m) = e_body e ++ closing ++ t.
Proof.
  intros (T1 & T2 & K1 & K2 & _ & B). unfold here. cbn [prev rest caps]. set (s := {| prev := p; rest := show_entry e ++ t; caps := [] |}).
  set (k := fun s1 : state => Some _).
  assert (E : rest s = "@"%char :: e_type e ++ "{"%char :: e_key e ++ ","%char :: e_body e ++ closing ++ t).
  { unfold s, show_entry. cbn [rest app]. rewrite <- !app_assoc. cbn [app]. rewrite <- !app_assoc. cbn [app]. rewrite <- !app_assoc. reflexivity. }
  set (s1 := past s ("@"%char :: e_type e ++ ["{"%char]) (e_key e ++ ","%char :: e_body e ++ closing ++ t)).
  set (s2 := past s1 (e_key e) (","%char :: e_body e ++ closing ++ t)).
  assert (R : forall x, k (past (capture s1 s2 1) (txt ",") (e_body e ++ closing ++ t)) = Some x -> run all_keys s k = Some x).
  { intros x Hx. unfold all_keys. rewrite run_cat, (lit_some (txt "@") _ s _ E). rewrite run_cat.
    eapply (lazy_some _ _ (e_type e)); [reflexivity|apply word_no_newline, T1| |].
    - intros a b Eb Nb. rewrite run_cat. apply lit_none. intros v Hv. rewrite past_rest in Hv. destruct b as [|c b]; [congruence|]. cbn in Hv. injection Hv as -> _.
      assert (X : ~ In "{"%char (e_type e)) by (apply (forallb_not_in is_word); [exact T1|reflexivity]). apply X. rewrite Eb. apply in_or_app. right. left. reflexivity.
    - rewrite past_join by reflexivity. rewrite run_cat, (lit_some (txt "{") (e_key e ++ ","%char :: e_body e ++ closing ++ t)) by reflexivity. rewrite past_join by reflexivity.
      change (past s _ (e_key e ++ _)) with s1. rewrite run_cat, run_group. eapply (lazy_some _ _ (e_key e)); [reflexivity| | |].
      + apply dots_not_in. apply (forallb_not_in key_char); [exact K1|reflexivity].
      + intros a b Eb Nb. apply lit_none. intros v Hv. unfold capture in Hv. cbn [rest] in Hv. rewrite past_rest in Hv. destruct b as [|c b]; [congruence|]. cbn in Hv. injection Hv as -> _.
        apply (key_no_comma _ K1). rewrite Eb. apply in_or_app. right. left. reflexivity.
      + rewrite (lit_some (txt ",") (e_body e ++ closing ++ t)) by reflexivity. exact Hx. }
  eexists. split; [apply R; unfold k; reflexivity|]. split; [|reflexivity].
  unfold group. cbn [groups past caps capture find fst snd Nat.eqb]. unfold s2. cbn [past rest]. apply firstn_past.
Qed.
Lemma all_found l : forall n u p, Forall (fun es => good_entry (fst es) /\ ~ In "@"%char (snd es)) l -> ~ In "@"%char u -> List.length l < n ->
  map (fun m => group m 1) (finditer_from n all_keys p (u ++ show_bib l)) = map (fun es => e_key (fst es)) l.
Proof.
  induction l as [|[e sep] l IH]; intros n u p F Hu Hn; (destruct n as [|n]; [inversion Hn|]); cbn [finditer_from show_bib].
  - rewrite search_none; [reflexivity|]. intros a b q E. rewrite app_nil_r in E. destruct b as [|c b]; [reflexivity|].
    apply all_not_here. intros ->. apply Hu. rewrite E. apply in_or_app. right. left. reflexivity.
  - inversion F as [|? ? [G S'] F']; subst. cbn [fst snd] in *.
    destruct (search_skip all_keys u p (show_entry e ++ sep ++ show_bib l)) as (q & ->).
    { intros a b q E Nb. destruct b as [|c b]; [congruence|]. apply all_not_here. intros ->. apply Hu. rewrite E. apply in_or_app. right. left. reflexivity. }
    destruct (all_here e (sep ++ show_bib l) q G) as (m & Hm & Gm & Rm). rewrite (search_here _ _ _ _ Hm). cbn [map after groups].
    unfold group at 1. cbn [groups]. fold (group m 1). rewrite Gm, Rm. f_equal.
    rewrite (app_assoc closing), (app_assoc (e_body e)). apply IH; [exact F'| |cbn in Hn; lia].
    rewrite !in_app_iff. destruct G as (_ & _ & _ & _ & B & _). cbn. intuition discriminate.
Qed.

(* ---------------- the keys a docstring cites ---------------- *)
Lemma role_cases role : In role roles -> exists w c, (w = txt "cite" \/ w = txt "footcite") /\ (c = "t"%char \/ c = "p"%char) /\ role = ":"%char :: w ++ ":"%char :: c :: [":"%char].
Proof.
  intros [<-|[<-|[<-|[<-|[]]]]].
  - exists (txt "cite"), "t"%char. auto.
  - exists (txt "cite"), "p"%char. auto.
  - exists (txt "footcite"), "t"%char. auto.
  - exists (txt "footcite"), "p"%char. auto.
Qed.
Lemma cited_here role key t p : In role roles -> ~ In c_tick key -> ~ In c_newline key ->
  exists m, here cited {| prev := p; rest := role ++ c_tick :: key ++ c_tick :: t; caps := [] |} = Some m /\ group m 1 = key /\ rest (after m) = t.
Proof.
  intros I K1 K2. apply role_cases in I as (w & c & Hw & Hc & ->). unfold here. cbn [prev rest caps].
  set (s := {| prev := p; rest := _; caps := [] |}). set (k := fun s1 : state => Some _).
  assert (E : rest s = ":"%char :: w ++ ":"%char :: c :: ":"%char :: c_tick :: key ++ c_tick :: t).
  { unfold s. cbn [rest app]. rewrite <- !app_assoc. reflexivity. }
  set (s1 := past s (":"%char :: w ++ ":"%char :: c :: [":"%char; c_tick]) (key ++ c_tick :: t)).
  set (s2 := past s1 key (c_tick :: t)).
  assert (R : forall x, k (past (capture s1 s2 1) [c_tick] t) = Some x -> run cited s k = Some x).
  { intros x Hx. unfold cited. rewrite run_cat, (lit_some (txt ":") _ s _ E). rewrite run_cat.
    match goal with |- run (Or ?a ?b) ?st ?kk = _ => assert (O : run (Or a b) st kk = kk (past st w (":"%char :: c :: ":"%char :: c_tick :: key ++ c_tick :: t)));
      [|rewrite O] end.
    { destruct Hw as [-> | ->]; cbn [run].
      - match goal with |- match ?x with _ => _ end = _ => rewrite (lit_some (txt "cite") (":"%char :: c :: ":"%char :: c_tick :: key ++ c_tick :: t)) by reflexivity end.
        match goal with |- match ?x with Some _ => _ | None => ?y end = _ => destruct x as [z|] eqn:Z end; [reflexivity|].
        rewrite lit_none; [reflexivity|]. intros v Hv. discriminate Hv.
      - rewrite lit_none by (intros v Hv; discriminate Hv).
        rewrite (lit_some (txt "footcite") (":"%char :: c :: ":"%char :: c_tick :: key ++ c_tick :: t)) by reflexivity. reflexivity. }
    clear O. rewrite past_join by reflexivity.
    rewrite run_cat, (lit_some (txt ":") (c :: ":"%char :: c_tick :: key ++ c_tick :: t)) by reflexivity. rewrite past_join by reflexivity.
    rewrite run_cat, (chr_some _ c (":"%char :: c_tick :: key ++ c_tick :: t)); [|reflexivity|destruct Hc as [-> | ->]; reflexivity]. rewrite past_join by reflexivity.
    rewrite run_cat, (lit_some [":"%char; c_tick] (key ++ c_tick :: t)) by reflexivity. rewrite past_join by reflexivity.
    replace (past s _ (key ++ c_tick :: t)) with s1 by (unfold s1; f_equal; cbn [txt list_ascii_of_string app]; rewrite <- !app_assoc; reflexivity).
    rewrite run_cat, run_group. eapply (lazy_some _ _ key); [reflexivity|apply dots_not_in, K2| |].
    - intros a b Eb Nb. apply lit_none. intros v Hv. unfold capture in Hv. cbn [rest] in Hv. rewrite past_rest in Hv. destruct b as [|d b]; [congruence|]. cbn in Hv. injection Hv as -> _.
      apply K1. rewrite Eb. apply in_or_app. right. left. reflexivity.
    - rewrite (lit_some [c_tick] t) by reflexivity. exact Hx. }
  eexists. split; [apply R; unfold k; reflexivity|]. split; [|reflexivity].
  unfold group. cbn [groups past caps capture find fst snd Nat.eqb]. unfold s2. cbn [past rest]. apply firstn_past.
Qed.
Lemma cited_inv t p m : here cited {| prev := p; rest := t; caps := [] |} = Some m ->
  exists role key t', t = role ++ c_tick :: key ++ c_tick :: t' /\ In role roles /\ ~ In c_tick key /\ ~ In c_newline key /\ group m 1 = key /\ rest (after m) = t'.
Proof.
  intros H. pose proof H as H'. unfold here in H. apply run_moved in H as (s1 & (u & E & L & _) & _). cbn [rest] in E.
  unfold cited in L.
  apply lang_cat_inv in L as (u1 & u2 & -> & L1 & L). apply lit_lang in L1 as ->.
  apply lang_cat_inv in L as (u3 & u4 & -> & L3 & L).
  apply lang_cat_inv in L as (u5 & u6 & -> & L5 & L). apply lit_lang in L5 as ->.
  apply lang_cat_inv in L as (u7 & u8 & -> & L7 & L). 
  assert (Lc : exists c, u7 = [c] /\ (Ascii.eqb c "t" || Ascii.eqb c "p" = true)%bool) by (inversion L7; subst; eauto). destruct Lc as (c & -> & Pc).
  apply lang_cat_inv in L as (u9 & u10 & -> & L9 & L). apply lit_lang in L9 as ->.
  apply lang_cat_inv in L as (u11 & u12 & -> & L11 & L13). apply lit_lang in L13 as ->. apply lang_group_inv, many_chr_lang in L11.
  assert (Hr : In (":"%char :: u3 ++ ":"%char :: c :: [":"%char]) roles).
  { assert (Hw : u3 = txt "cite" \/ u3 = txt "footcite") by (inversion L3; subst; [left|right]; apply lit_lang; assumption).
    assert (Hc : c = "t"%char \/ c = "p"%char) by (apply orb_true_iff in Pc as [Pc|Pc]; apply Ascii.eqb_eq in Pc; auto).
    destruct Hw as [-> | ->], Hc as [-> | ->]; cbn; tauto. }
  assert (N : ~ In c_newline u11).
  { apply (forallb_not_in (fun c => negb (Ascii.eqb c c_newline))); [exact L11|reflexivity]. }
  assert (X : exists key t', u11 ++ c_tick :: rest s1 = key ++ c_tick :: t' /\ ~ In c_tick key /\ ~ In c_newline key).
  { destruct (first_in c_tick u11) as [A|(a & r & -> & A)]; [exists u11, (rest s1); auto|].
    exists a, (r ++ c_tick :: rest s1). split; [rewrite <- app_assoc; reflexivity|]. split; [exact A|]. intros I. apply N, in_or_app. auto. }
  destruct X as (key & t' & X1 & X2 & X3). exists (":"%char :: u3 ++ ":"%char :: c :: [":"%char]), key, t'.
  assert (Et : t = (":"%char :: u3 ++ ":"%char :: c :: [":"%char]) ++ c_tick :: key ++ c_tick :: t').
  { rewrite E. cbn [txt list_ascii_of_string app]. rewrite <- !app_assoc. cbn [app]. rewrite <- X1, <- !app_assoc. reflexivity. }
  split; [exact Et|]. repeat (split; [assumption|]). destruct (cited_here _ key t' p Hr X2 X3) as (m2 & M & G & Rm). rewrite <- Et in M. rewrite H' in M. injection M as ->. auto.
Qed.
Lemma search_inv r t : forall p m, search_from r p t = Some m -> exists a b q m', t = a ++ b /\ here r {| prev := q; rest := b; caps := [] |} = Some m' /\
  groups m = groups m' /\ after m = after m' /\ forall a1 a2, a = a1 ++ a2 -> a2 <> [] -> exists q, here r {| prev := q; rest := a2 ++ b; caps := [] |} = None.
Proof.
  induction t as [|c t IH]; intros p m H; cbn [search_from] in H.
  - destruct (here _ _) as [m'|] eqn:E; [|discriminate]. injection H as ->. exists [], [], p, m. repeat split; [exact E|]. intros a1 a2 X N. destruct a1, a2; try congruence; discriminate.
  - destruct (here _ _) as [m'|] eqn:E.
    + injection H as ->. exists [], (c :: t), p, m. repeat split; [exact E|]. intros a1 a2 X N. destruct a1, a2; try congruence; discriminate.
    + destruct (search_from r (Some c) t) as [m'|] eqn:F; [|discriminate]. injection H as <-. destruct (IH _ _ F) as (a & b & q & m2 & -> & H2 & G & A & N).
      exists (c :: a), b, q, m2. cbn [groups after]. repeat split; [exact H2|exact G|exact A|]. intros a1 a2 X Na. destruct a1 as [|d a1]; cbn in X.
      * subst a2. exists p. exact E.
      * injection X as _ X. apply (N a1 a2 X Na).
Qed.
Lemma search_none_inv r t : forall p, search_from r p t = None -> forall a b, t = a ++ b -> exists q, here r {| prev := q; rest := b; caps := [] |} = None.
Proof.
  induction t as [|c t IH]; intros p H a b E; cbn [search_from] in H; destruct (here _ _) eqn:F; try discriminate.
  - destruct a, b; try discriminate. exists p. exact F.
  - destruct (search_from r (Some c) t) eqn:G; [discriminate|]. destruct a as [|d a]; cbn in E.
    + subst b. exists p. exact F.
    + injection E as _ E. apply (IH _ G a b E).
Qed.
Lemma cited_sound n : forall p d m, In m (finditer_from n cited p d) -> cites d (group m 1).
Proof.
  induction n as [|n IH]; intros p d m I; cbn in I; [destruct I|]. destruct (search_from cited p d) as [m'|] eqn:E; [|destruct I].
  apply search_inv in E as (a & b & q & m2 & -> & H & G & A & _). apply cited_inv in H as (role & key & t' & -> & R & K1 & K2 & Gk & Rt). destruct I as [<-|I].
  - exists a, role, t'. unfold group. rewrite G. fold (group m2 1). rewrite Gk. split; [reflexivity|auto].
  - apply IH in I. rewrite A, Rt in I. destruct I as (a' & role' & af & (E & R' & K1' & K2')). exists (a ++ role ++ c_tick :: key ++ [c_tick] ++ a'), role', af.
    split; [|auto]. rewrite E, <- !app_assoc. cbn [app]. rewrite <- !app_assoc. reflexivity.
Qed.
Lemma role_no_overlap role z w : In role roles -> role = z ++ w -> z <> [] -> forall role' x y, In role' roles -> w ++ c_tick :: x <> role' ++ y.
Proof.
  intros R E N role' x y R' H.
  assert (L : List.length z <= 12) by (apply (f_equal (@List.length _)) in E; rewrite app_length in E; destruct R as [<-|[<-|[<-|[<-|[]]]]]; cbn in E; lia).
  destruct R as [<-|[<-|[<-|[<-|[]]]]]; cbn in E;
    (do 13 (destruct z as [|? z]; [first [congruence | cbn in E; injection E; intros; subst; destruct R' as [<-|[<-|[<-|[<-|[]]]]]; discriminate H]|cbn in E; try discriminate E]));
    cbn in L; lia.
Qed.
Lemma cited_complete n : forall p d before role key after, List.length d < n -> cites_at d before role key after -> (forall k, cites d k -> ~ In ":"%char k) ->
  In key (map (fun m => group m 1) (finditer_from n cited p d)).
Proof.
  induction n as [|n IH]; intros p d before role key aft Hn (Hd & R & K1 & K2) C; [lia|]. cbn [finditer_from].
  destruct (search_from cited p d) as [m|] eqn:E.
  2:{ destruct (search_none_inv _ _ _ E before (role ++ c_tick :: key ++ c_tick :: aft)) as (q & F); [exact Hd|].
      destruct (cited_here role key aft q R K1 K2) as (m & M & _). congruence. }
  apply search_inv in E as (a & b & q & m2 & E & H & G & A & N). apply cited_inv in H as (role' & key' & t' & Eb & R' & K1' & K2' & Gk & Rt).
  cbn [map]. assert (Gm : group m 1 = key') by (unfold group; rewrite G; exact Gk). rewrite Gm, A, Rt.
  rewrite Hd in E. apply app_split in E. destruct E as [(z & -> & Ez)|(z & -> & Ez & Nz)].
  - (* the occurrence is not after the match *)
    destruct z as [|c z].
    + cbn in Ez. left. rewrite Eb in Ez. destruct (cited_here role key aft None R K1 K2) as (m3 & M3 & G3 & _).
      destruct (cited_here role' key' t' None R' K1' K2') as (m4 & M4 & G4 & _). rewrite Ez in M3. rewrite M4 in M3. injection M3 as ->. congruence.
    + destruct (N before (c :: z)) as (q' & F); [reflexivity|discriminate|]. rewrite <- Ez in F.
      destruct (cited_here role key aft q' R K1 K2) as (m3 & M3 & _). congruence.
  - right. rewrite Eb in Ez.
    replace (role' ++ c_tick :: key' ++ c_tick :: t') with ((role' ++ c_tick :: key' ++ [c_tick]) ++ t') in Ez by (rewrite <- !app_assoc; cbn [app]; rewrite <- app_assoc; reflexivity).
    assert (Ck : ~ In ":"%char key').
    { apply C. exists a, role', t'. split; [|auto]. rewrite Hd, <- app_assoc, <- Ez, <- !app_assoc. cbn [app]. rewrite <- app_assoc. reflexivity. }
    apply app_split in Ez. destruct Ez as [(w & -> & Ew)|(w & Ew & Ew2 & Nw)].
    + apply (IH _ t' w role key aft); [|split; [exact Ew|auto]|].
      * rewrite Hd in Hn. rewrite Ew. rewrite !app_length in Hn. cbn [List.length] in Hn. rewrite !app_length in *. cbn [List.length] in *. rewrite !app_length in *. cbn [List.length] in *. lia.
      * intros k (b1 & r1 & a1 & E1 & X). apply C. exists ((a ++ (role' ++ c_tick :: key' ++ [c_tick])) ++ b1), r1, a1. split; [|exact X].
        rewrite <- app_assoc, <- E1, Ew, Hd, <- !app_assoc. reflexivity.
    + exfalso. apply app_split in Ew. destruct Ew as [(x & -> & Ew)|(x & Er & Ew & Nx)].
      * (* inside the key *)
        destruct (role_cases _ R) as (w0 & c0 & _ & _ & Er). rewrite Er in Ew2. cbn [app] in Ew2. destruct w as [|c w]; [congruence|]. cbn in Ew2. injection Ew2 as <- _.
        destruct x as [|c1 x]; cbn in Ew.
        -- discriminate Ew.
        -- injection Ew as <- Ew. assert (I : In ":"%char (key' ++ [c_tick])) by (rewrite Ew; apply in_or_app; right; left; reflexivity).
           apply in_app_iff in I. destruct I as [I|[I|[]]]; [contradiction|discriminate I].
      * subst w. apply (role_no_overlap role' z x R' Er Nz role (key' ++ c_tick :: t') (c_tick :: key ++ c_tick :: aft) R).
        rewrite Ew2, <- !app_assoc. cbn [app]. rewrite <- app_assoc. reflexivity.
Qed.

(* ---------------- the claims ---------------- *)
(** citations("all") has every entry of the file, complete and once, in some order. *)
Theorem C81_all : forall start l str_doc order, ~ In "@"%char start -> good_bib l -> set_order order ->
  exists es, Permutation es (map fst l) /\
    citations (start ++ show_bib l) str_doc order (Word (txt "all")) None (txt "bibtex") = Ok (Returned (join_nl (map show_entry es))).
Proof.
  intros start l str_doc order Hs G O. unfold citations, keys_of. rewrite !text_eqb_refl. cbn [bind]. unfold finditer.
  assert (Ln : List.length l < S (List.length (start ++ show_bib l))).
  { rewrite app_length. clear. induction l as [|[e sep] l IH]; cbn [show_bib List.length]; [lia|]. unfold show_entry. cbn [app List.length]. rewrite !app_length in *. cbn [List.length] in *. lia. }
  pose proof G as [F D]. rewrite (all_found l _ start None F Hs Ln). set (keys := map (fun es => e_key (fst es)) l) in *.
  destruct (O keys) as [O1 O2].
  assert (X : exists es, Forall2 (fun k e => e_key e = k /\ In e (map fst l)) (order keys) es /\ map e_key es = order keys).
  { assert (Y : Forall (fun k => In k keys) (order keys)) by (apply Forall_forall; intros k Hk; apply O2, Hk).
    clear O1 O2. induction Y as [|k ks Hk Y (es & H1 & H2)]; [exists []; split; [constructor|reflexivity]|].
    unfold keys in Hk. apply in_map_iff in Hk as (x & E & I). exists (fst x :: es). split; [constructor; [split; [exact E|apply in_map, I]|exact H1]|cbn; congruence]. }
  destruct X as (es & X1 & X2). exists es. split.
  - assert (Mk : map e_key (map fst l) = keys) by (unfold keys; rewrite map_map; reflexivity).
    apply NoDup_Permutation.
    + apply (NoDup_map_inv e_key). rewrite X2. exact O1.
    + apply (NoDup_map_inv e_key). rewrite Mk. exact D.
    + intros e. split.
      * intros I. clear - X1 I. induction X1 as [|k e' ks es [_ H] X1 IH]; [destruct I|]. destruct I as [<-|I]; auto.
      * intros I. assert (J : In (e_key e) (order keys)) by (apply O2; rewrite <- Mk; apply in_map, I). rewrite <- X2 in J. apply in_map_iff in J as (e' & E & J).
        assert (I' : In e' (map fst l)). { clear - X1 J. induction X1 as [|k e ks es [_ H] X1 IH]; [destruct J|]. destruct J as [<-|J]; auto. }
        replace e with e'; [exact J|]. clear - D E I I' Mk. subst keys. rewrite <- Mk in D. revert D I I' E. generalize (map fst l). clear. intros l D I I' E.
        induction l as [|x l IH]; [destruct I|]. cbn in D. inversion D as [|? ? N D']; subst. destruct I as [<-|I], I' as [<-|I']; auto.
        -- exfalso. apply N. rewrite <- E. apply in_map, I'.
        -- exfalso. apply N. rewrite E. apply in_map, I.
  - transitivity (do t <- citation_bibtex (start ++ show_bib l) (order keys); Ok (Returned t)); [reflexivity|].
    rewrite (refs_found start l _ es Hs G X1). reflexivity.
Qed.

(** What a docstring cites: every key that is found is cited, whatever the text, and every key that is cited is found, if no
    key has a colon in it. *)
Theorem C81_cited : forall docs, Forall (fun d => forall k, cites d k -> ~ In ":"%char k) docs ->
  exists keys, keys_cited (map Some docs) = Ok keys /\ forall k, In k keys <-> exists d, In d docs /\ cites d k.
Proof.
  intros docs H. induction H as [|d docs Hd H (keys & E & IH)].
  - exists []. split; [reflexivity|]. intros k. split; [intros []|intros (d & [] & _)].
  - cbn [map keys_cited]. rewrite E. cbn [bind]. eexists. split; [reflexivity|]. intros k. rewrite in_app_iff, IH. split.
    + intros [I|(d' & I & C)]; [|exists d'; cbn; auto]. apply in_map_iff in I as (m & <- & I). exists d. split; [left; reflexivity|]. eapply cited_sound, I.
    + intros (d' & [<-|I] & C); [left|right; exists d'; auto]. destruct C as (b & r & a & C). unfold finditer. eapply cited_complete; [|exact C|exact Hd]. lia.
Qed.

(** For any list of methods: the entries of all that their docstrings cite, each once, if all of them are in the file ... *)
Theorem C81_methods : forall start l str_doc order docs, ~ In "@"%char start -> good_bib l -> set_order order ->
  Forall (fun d => forall k, cites d k -> ~ In ":"%char k /\ exists e, In e (map fst l) /\ e_key e = k) docs ->
  exists es, (forall e, In e es <-> In e (map fst l) /\ exists d, In d docs /\ cites d (e_key e)) /\ NoDup es /\
    citations (start ++ show_bib l) str_doc order (Methods (map Some docs)) None (txt "bibtex") = Ok (Returned (join_nl (map show_entry es))).
Proof.
  intros start l str_doc order docs Hs G O H. destruct (C81_cited docs) as (keys & E & K).
  { eapply Forall_impl; [|exact H]. intros d Hd k C. apply Hd, C. }
  unfold citations, keys_of. rewrite E, text_eqb_refl. cbn [bind]. destruct (O keys) as [O1 O2]. rewrite Forall_forall in H.
  assert (X : exists es, Forall2 (fun k e => e_key e = k /\ In e (map fst l)) (order keys) es /\ map e_key es = order keys).
  { assert (Y : Forall (fun k => exists e, In e (map fst l) /\ e_key e = k) (order keys)).
    { apply Forall_forall. intros k Hk. apply O2, K in Hk as (d & Hd & C). apply (H d Hd k C). }
    clear O1 O2. induction Y as [|k ks (e & He & Ek) Y (es & H1 & H2)]; [exists []; split; [constructor|reflexivity]|].
    exists (e :: es). split; [constructor; auto|cbn; congruence]. }
  destruct X as (es & X1 & X2). exists es.
  assert (Il : forall e, In e es -> In e (map fst l)).
  { intros e I. clear - X1 I. induction X1 as [|k e' ks es [_ X] X1 IH]; [destruct I|]. destruct I as [<-|I]; auto. }
  split; [|split].
  - intros e. split.
    + intros I. split; [apply Il, I|]. apply K, O2. rewrite <- X2. apply in_map, I.
    + intros [I C]. apply K, O2 in C. rewrite <- X2 in C. apply in_map_iff in C as (e' & Ee & J). replace e with e'; [exact J|].
      destruct G as [_ D]. rewrite <- (map_map fst e_key) in D. specialize (Il e' J). clear - D I Il Ee. revert D I Il. generalize (map fst l). intros m D I I'.
      induction m as [|x m IH]; [destruct I|]. cbn in D. inversion D as [|? ? N D']; subst. destruct I as [<-|I], I' as [<-|I']; auto.
      -- exfalso. apply N. rewrite <- Ee. apply in_map, I'.
      -- exfalso. apply N. rewrite Ee. apply in_map, I.
  - apply (NoDup_map_inv e_key). rewrite X2. exact O1.
  - rewrite (refs_found start l _ es Hs G X1). reflexivity.
Qed.

(** ... and an AttributeError as soon as one of them is not. *)
Theorem C81_unknown_key : forall start l str_doc order docs d k, ~ In "@"%char start -> good_bib l -> set_order order ->
  Forall (fun d => forall k, cites d k -> forallb key_char k = true /\ ~ In ":"%char k) docs -> In d docs -> cites d k ->
  ~ In k (map e_key (map fst l)) ->
  citations (start ++ show_bib l) str_doc order (Methods (map Some docs)) None (txt "bibtex") = Err AttributeError.
Proof.
  intros start l str_doc order docs d k Hs G O H Hd Hk N. destruct (C81_cited docs) as (keys & E & K).
  { eapply Forall_impl; [|exact H]. intros x Hx y C. apply Hx, C. }
  unfold citations, keys_of. rewrite E, text_eqb_refl. cbn [bind]. destruct (O keys) as [O1 O2]. rewrite Forall_forall in H.
  rewrite (refs_missing start l _ k Hs G); [reflexivity| | | |].
  - apply O2, K. eauto.
  - apply (H d Hd k Hk).
  - rewrite map_map in N. exact N.
  - apply Forall_forall. intros x Hx. apply O2, K in Hx as (d' & Hd' & C). apply (H d' Hd' x C).
Qed.

(** By default: the two entries for PreliZ itself. *)
Theorem C81_default : forall start l str_doc order e1 e2, ~ In "@"%char start -> good_bib l -> set_order order ->
  In e1 (map fst l) -> In e2 (map fst l) -> e_key e1 = txt "PreliZ" -> e_key e2 = txt "Icazatti2023" ->
  let both a b := Ok (Returned (show_entry a ++ c_newline :: show_entry b)) in
  citations (start ++ show_bib l) str_doc order Default None (txt "bibtex") = both e1 e2 \/
  citations (start ++ show_bib l) str_doc order Default None (txt "bibtex") = both e2 e1.
Proof.
  intros start l str_doc order e1 e2 Hs G O I1 I2 E1 E2 both. unfold citations, keys_of. rewrite text_eqb_refl. cbn [bind].
  destruct (O [txt "PreliZ"; txt "Icazatti2023"]) as [O1 O2].
  assert (P : Permutation (order [txt "PreliZ"; txt "Icazatti2023"]) [txt "PreliZ"; txt "Icazatti2023"]).
  { apply NoDup_Permutation; [exact O1| |exact O2]. constructor; [|constructor; [|constructor]]; cbn; [intros [X|[]]; discriminate X|intros []]. }
  apply Permutation_sym, Permutation_length_2_inv in P. destruct P as [-> | ->].
  - left. rewrite (refs_found start l _ [e1; e2] Hs G); [reflexivity|]. repeat constructor; assumption.
  - right. rewrite (refs_found start l _ [e2; e1] Hs G); [reflexivity|]. repeat constructor; assumption.
Qed.

(** A file is written, with what would have been returned, exactly if a path that is not empty is given; a format other than
    "bibtex" is a ValueError; a method without a docstring, or a single method that is not in a list, is a TypeError. *)
Theorem C81_arguments : forall content str_doc order request format,
  (forall path a, path <> [] -> citations content str_doc order request (Some path) format = Ok a <->
     exists t, a = Saved path t /\ citations content str_doc order request None format = Ok (Returned t)) /\
  (format <> txt "bibtex" -> forall path, (forall a, citations content str_doc order request path format <> Ok a) /\
     (request = Default \/ (exists w, request = Word w) \/ (exists docs, request = Methods (map Some docs)) ->
        citations content str_doc order request path format = Err ValueError)) /\
  (forall path docs after, citations content str_doc order (Methods (map Some docs ++ None :: after)) path format = Err TypeError) /\
  (forall path, citations content str_doc order NotIterable path format = Err TypeError).
Proof.
  intros content str_doc order request format. split; [|split; [|split]].
  - intros path a Np. unfold citations. destruct path as [|c path]; [congruence|]. destruct (keys_of content str_doc request) as [keys|e]; [|split; [discriminate|intros (t & _ & X); discriminate X]].
    cbn [bind]. destruct (text_eqb format _); [|split; [discriminate|intros (t & _ & X); discriminate X]]. destruct (citation_bibtex _ _) as [t|e]; cbn [bind].
    + split; [intros X; injection X as <-; eauto|intros (t' & -> & X); injection X as ->; reflexivity].
    + split; [discriminate|intros (t & _ & X); discriminate].
  - intros N path. assert (E : text_eqb format (txt "bibtex") = false). { destruct (text_eqb format (txt "bibtex")) eqn:E; [apply text_eqb_spec in E; contradiction|reflexivity]. }
    unfold citations. rewrite E. split; [intros a; destruct (keys_of _ _ _); discriminate|]. intros R.
    assert (K : exists ks, keys_of content str_doc request = Ok ks); [|destruct K as (ks & ->); reflexivity].
    assert (KC : forall A (l : list A) f, exists ks, keys_cited (map (fun x => Some (f x)) l) = Ok ks).
    { intros A l f. induction l as [|d l (ks & IH)]; [eexists; reflexivity|]. cbn [map keys_cited]. rewrite IH. eexists. reflexivity. }
    unfold keys_of. destruct R as [-> | [(w & ->) | (docs & ->)]]; [eexists; reflexivity| |].
    + destruct (text_eqb w (txt "all")); [eexists; reflexivity|]. apply (KC _ w (fun _ => str_doc)).
    + apply (KC _ docs (fun d => d)).
  - intros path docs aft. unfold citations, keys_of. assert (E : keys_cited (map Some docs ++ None :: aft) = Err TypeError); [|rewrite E; reflexivity].
    induction docs as [|d docs IH]; [reflexivity|]. cbn [map app keys_cited]. rewrite IH. reflexivity.
  - intros path. reflexivity.
Qed.

(** FINDING. The name of a method as a string, which the documentation allows, is taken for a list of its letters: the result
    is empty, also for a name that does not exist. *)
Theorem C81_name_refuted : forall content str_doc order name, set_order order -> (forall k, ~ cites str_doc k) -> name <> txt "all" ->
  citations content str_doc order (Word name) None (txt "bibtex") = Ok (Returned []).
Proof.
  intros content str_doc order name O H N. unfold citations, keys_of. destruct (text_eqb name (txt "all")) eqn:Ea; [apply text_eqb_spec in Ea; contradiction|].
  assert (F : finditer cited str_doc = []).
  { destruct (finditer cited str_doc) as [|m l] eqn:E; [reflexivity|]. exfalso. apply (H (group m 1)). unfold finditer in E. eapply (cited_sound _ None). rewrite E. left. reflexivity. }
  assert (E : keys_cited (map (fun _ => Some str_doc) name) = Ok []).
  { clear N Ea. induction name as [|c name IH]; [reflexivity|]. cbn [map keys_cited]. rewrite IH, F. reflexivity. }
  rewrite E, text_eqb_refl. cbn [bind]. destruct (O []) as [_ O2]. destruct (order []) as [|k ks]; [reflexivity|]. exfalso. apply (O2 k). left. reflexivity.
Qed.

(* ---------------- the file that is shipped ---------------- *)
Definition entry_of3 (x : string * string * string) : entry := mkEntry (txt (fst (fst x))) (txt (snd (fst x))) (txt (snd x)).
Definition shipped : list (entry * text) := map (fun x => (entry_of3 (fst x), txt (snd x))) reference_entries.
Fixpoint closes_once (b : text) : bool :=
  match b with
  | [] => true
  | c :: r => negb (Ascii.eqb c c_newline && match r with d :: _ => Ascii.eqb d "}" | [] => false end) && closes_once r
  end.
Lemma closes_once_spec b : closes_once b = true -> forall a z, b ++ closing = a ++ closing ++ z -> z = [].
Proof.
  induction b as [|c b IH]; intros H a z E.
  - assert (L := f_equal (@List.length _) E). rewrite !app_length in L. cbn [List.length closing] in L. destruct z; [reflexivity|cbn in L; lia].
  - cbn in H. apply andb_true_iff in H as [H1 H2]. destruct a as [|x a]; cbn in E.
    + injection E as -> E. exfalso. cbn in H1. destruct b as [|d b]; cbn in E; [discriminate|]. injection E as -> E. discriminate.
    + injection E as _ E. apply (IH H2 a z E).
Qed.
Definition in_text (c : ascii) (t : text) : bool := existsb (Ascii.eqb c) t.
Lemma in_text_false c t : in_text c t = false -> ~ In c t.
Proof. intros H I. unfold in_text in H. assert (X : existsb (Ascii.eqb c) t = true) by (apply existsb_exists; exists c; split; [exact I|apply Ascii.eqb_refl]). congruence. Qed.
Definition good_entryb (es : entry * text) : bool :=
  let e := fst es in forallb is_word (e_type e) && negb (text_eqb (e_type e) []) && forallb key_char (e_key e) && negb (text_eqb (e_key e) []) &&
  negb (in_text "@" (e_body e)) && closes_once (e_body e) && negb (in_text "@" (snd es)).
Lemma good_entryb_spec es : good_entryb es = true -> good_entry (fst es) /\ ~ In "@"%char (snd es).
Proof.
  unfold good_entryb. rewrite !andb_true_iff, !negb_true_iff. intros ((((((H1 & H2) & H3) & H4) & H5) & H6) & H7).
  split; [|apply in_text_false, H7]. split; [exact H1|]. split; [intros E; rewrite E in *; discriminate|]. split; [exact H3|].
  split; [intros E; rewrite E in *; discriminate|]. split; [apply in_text_false, H5|apply closes_once_spec, H6].
Qed.
(** The bibliography that is shipped is of the kind above: its text is that of five entries, and the theorems apply to it. *)
Theorem C81_shipped : txt reference_bib = show_bib shipped /\ good_bib shipped /\
  map e_key (map fst shipped) = map txt ["PreliZ"; "Icazatti2023"; "Morris2014"; "Michael2017"; "Burnham2004"]%string.
Proof.
  split; [vm_compute; reflexivity|]. split; [|vm_compute; reflexivity]. split.
  - apply Forall_forall. intros es I. apply good_entryb_spec. assert (X : forallb good_entryb shipped = true) by (vm_compute; reflexivity).
    rewrite forallb_forall in X. apply X, I.
  - rewrite <- (map_map fst e_key). replace (map e_key (map fst shipped)) with (map txt ["PreliZ"; "Icazatti2023"; "Morris2014"; "Michael2017"; "Burnham2004"]%string) by (vm_compute; reflexivity).
    repeat constructor; cbn; intuition discriminate.
Qed.

(** A docstring such as that of dirichlet_mode, and the file that is shipped: the theorems on methods apply, and the answer is the
    entry it cites. *)
Definition some_doc : text := txt "Returns a Dirichlet distribution with specified modes. (Adapted from :footcite:t:`Michael2017`). See :class:`Dirichlet`.".
Lemma some_doc_cites : exists before after, cites_at some_doc before (txt ":footcite:t:") (txt "Michael2017") after.
Proof.
  exists (txt "Returns a Dirichlet distribution with specified modes. (Adapted from "), (txt "). See :class:`Dirichlet`."). split; [vm_compute; reflexivity|].
  split; [cbn; tauto|]. split; apply in_text_false; reflexivity.
Qed.
Fixpoint suffixes (t : text) : list text := t :: match t with [] => [] | _ :: r => suffixes r end.
Lemma suffixes_in a : forall b, In b (suffixes (a ++ b)).
Proof. induction a as [|c a IH]; intros b; [destruct b; left; reflexivity|right; apply IH]. Qed.
Lemma cites_checked (P : text -> bool) d :
  forallb (fun b => match here cited {| prev := None; rest := b; caps := [] |} with Some m => P (group m 1) | None => true end) (suffixes d) = true ->
  forall k, cites d k -> P k = true.
Proof.
  intros H k (b & r & a & (E & R & K1 & K2)). rewrite forallb_forall in H. specialize (H (r ++ c_tick :: k ++ c_tick :: a)).
  destruct (cited_here r k a None R K1 K2) as (m & M & G & _). rewrite M, G in H. apply H. rewrite E. apply suffixes_in.
Qed.
Example C81_applies : exists es, citations (txt reference_bib) [] (fun l => nodup (list_eq_dec ascii_dec) l) (Methods (map Some [some_doc; txt "No citation"])) None (txt "bibtex") =
    Ok (Returned (join_nl (map show_entry es))) /\ map e_key es = [txt "Michael2017"].
Proof.
  destruct C81_shipped as (E & G & Ks).
  assert (O : set_order (fun l => nodup (list_eq_dec ascii_dec) l)) by (intros l; split; [apply NoDup_nodup|intros k; apply nodup_In]).
  assert (C : forall d, In d [some_doc; txt "No citation"] -> forall k, cites d k -> k = txt "Michael2017").
  { intros d Hd k C. apply text_eqb_spec. revert k C. apply cites_checked. destruct Hd as [<-|[<-|[]]]; vm_compute; reflexivity. }
  destruct (C81_methods [] shipped [] _ [some_doc; txt "No citation"] (fun x => x) G O) as (es & H1 & H2 & H3).
  - apply Forall_forall. intros d Hd k Ck. rewrite (C d Hd k Ck). split; [apply in_text_false; reflexivity|].
    assert (I : In (txt "Michael2017") (map e_key (map fst shipped))) by (rewrite Ks; cbn; tauto). apply in_map_iff in I as (e & Ee & I). eauto.
  - exists es. split; [rewrite E; exact H3|]. assert (A : forall e, In e es -> e_key e = txt "Michael2017") by (intros e I; apply H1 in I as (_ & d & Hd & Ce); exact (C d Hd _ Ce)).
    assert (B : exists e, In e es).
    { assert (I : In (txt "Michael2017") (map e_key (map fst shipped))) by (rewrite Ks; cbn; tauto). apply in_map_iff in I as (e & Ee & I).
      exists e. apply H1. split; [exact I|]. exists some_doc. split; [left; reflexivity|]. rewrite Ee. destruct some_doc_cites as (b & a & X). exists b, (txt ":footcite:t:"), a. exact X. }
    assert (U : forall e e', In e es -> In e' es -> e = e').
    { intros e e' I I'. pose proof (A _ I) as X. pose proof (A _ I') as X'. apply H1 in I as (I & _). apply H1 in I' as (I' & _).
      destruct G as [_ D]. rewrite <- (map_map fst e_key) in D. clear - D I I' X X'. revert D I I'. generalize (map fst shipped). intros m D I I'.
      induction m as [|x m IH]; [destruct I|]. cbn in D. inversion D as [|? ? N D']; subst. destruct I as [<-|I], I' as [<-|I']; auto.
      - exfalso. apply N. rewrite X, <- X'. apply in_map, I'.
      - exfalso. apply N. rewrite X', <- X. apply in_map, I. }
    destruct es as [|e es]; [destruct B as (? & [])|]. destruct es as [|e' es]; [cbn; rewrite (A e); [reflexivity|left; reflexivity]|].
    exfalso. inversion H2 as [|? ? N _]; subst. apply N. left. apply U; [right; left; reflexivity|left; reflexivity].
Qed.

Print Assumptions C81_all.
Print Assumptions C81_cited.
Print Assumptions C81_methods.
Print Assumptions C81_unknown_key.
Print Assumptions C81_default.
Print Assumptions C81_arguments.
Print Assumptions C81_name_refuted.
Print Assumptions C81_shipped.
