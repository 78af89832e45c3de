(** How the patterns of SourceModel read the programs of SourceSpec. *)
From Coq Require Import List Bool Ascii String Arith Lia ZArith.
From Verif Require Import Base FamModel TextModel TextProps PplModel CatModel ReModel ReProofs SourceModel SourceSpec.
Import ListNotations.
Open Scope list_scope.
Arguments past : simpl never.
Lemma run_cat {X} a b s (k : state -> option X) : run (Cat a b) s k = run a s (fun s1 => run b s1 k). Proof. reflexivity. Qed.
Lemma run_group {X} n a s (k : state -> option X) : run (Group n a) s k = run a s (fun s1 => k (capture s s1 n)). Proof. reflexivity. Qed.

(* ---------------------------------------------------------------- texts *)
Lemma first_in (c : ascii) t : ~ In c t \/ exists a r, t = a ++ c :: r /\ ~ In c a.
Proof.
  induction t as [|d t IH]; [left; intros []|]. destruct (ascii_dec d c) as [->|N].
  - right. exists [], t. split; [reflexivity|intros []].
  - destruct IH as [H|(a & r & -> & H)]; [left; intros [E|I]; [congruence|contradiction]|].
    right. exists (d :: a), r. split; [reflexivity|]. intros [E|I]; [congruence|contradiction].
Qed.
Lemma app_split {A} (u v b t : list A) : u ++ v = b ++ t -> (exists w, b = u ++ w /\ v = w ++ t) \/ (exists w, u = b ++ w /\ t = w ++ v /\ w <> []).
Proof.
  revert b. induction u as [|x u IH]; intros b E.
  - left. exists b. split; [reflexivity|exact E].
  - destruct b as [|y b].
    + right. exists (x :: u). split; [reflexivity|]. split; [symmetry; exact E|discriminate].
    + cbn in E. injection E as -> E. destruct (IH b E) as [(w & -> & H)|(w & -> & H1 & H2)].
      * left. exists w. split; [reflexivity|exact H].
      * right. exists w. split; [reflexivity|split; assumption].
Qed.
(** What comes before a character that does not occur in [u] starts with [u]. *)
Lemma app_before (c : ascii) u v b t : ~ In c u -> u ++ v = b ++ c :: t -> exists w, b = u ++ w /\ v = w ++ c :: t.
Proof.
  intros N E. destruct (app_split _ _ _ _ E) as [H|(w & -> & H & W)]; [exact H|]. exfalso. destruct w as [|d w]; [congruence|].
  cbn in H. injection H as -> _. apply N, in_or_app. right. left. reflexivity.
Qed.
Lemma forallb_not_in (p : ascii -> bool) c u : forallb p u = true -> p c = false -> ~ In c u.
Proof. intros F P I. rewrite forallb_forall in F. rewrite (F c I) in P. discriminate. Qed.
Lemma not_in_forallb c u : ~ In c u -> forallb (fun d => negb (Ascii.eqb d c)) u = true.
Proof. intros N. apply forallb_forall. intros d I. destruct (Ascii.eqb_spec d c) as [->|]; [contradiction|reflexivity]. Qed.
Lemma dots_not_in u : ~ In c_newline u -> forallb (fun c => negb (Ascii.eqb c c_newline)) u = true.
Proof. apply not_in_forallb. Qed.
Lemma no_parens_forallb u : no_parens u -> forallb not_paren u = true.
Proof. intros [A B]. apply forallb_forall. intros d I. unfold not_paren. destruct (Ascii.eqb_spec d c_open) as [->|]; [contradiction|].
  destruct (Ascii.eqb_spec d c_close) as [->|]; [contradiction|reflexivity]. Qed.

(* ---------------------------------------------------------------- comments *)
Lemma comment_here u t p : ~ In c_newline u -> stops (fun c => negb (Ascii.eqb c c_newline)) t ->
  exists m, here comment {| prev := p; rest := "#"%char :: u ++ t; caps := [] |} = Some m /\ skipped m = [] /\ rest (after m) = t.
Proof.
  intros N St. unfold here. cbn [prev rest caps].
  set (k := fun s1 : state => Some {| skipped := []; whole := firstn (List.length ("#"%char :: u ++ t) - List.length (rest s1)) ("#"%char :: u ++ t);
                                      groups := caps s1; after := s1 |}).
  set (s := {| prev := p; rest := "#"%char :: u ++ t; caps := [] |}).
  assert (E : run comment s k = k (past (past s ["#"%char] (u ++ t)) u t)).
  { unfold comment. cbn [run]. unfold s. cbn [rest]. rewrite Ascii.eqb_refl. unfold k at 2.
    apply (greedy_some _ _ u t).
    - reflexivity.
    - apply dots_not_in, N.
    - exact St.
    - cbn [run]. rewrite past_rest. destruct t as [|d t]; [reflexivity|]. cbn in St. apply negb_false_iff in St. rewrite St. reflexivity. }
  rewrite E. unfold k. eexists. split; [reflexivity|]. cbn. split; [reflexivity|]. rewrite past_rest. reflexivity.
Qed.
Lemma comment_not_here t p : stops (Ascii.eqb "#"%char) t -> here comment {| prev := p; rest := t; caps := [] |} = None.
Proof. intros H. unfold here, comment. cbn [run prev rest caps]. destruct t as [|c t]; [reflexivity|]. cbn [stops] in H. rewrite H. reflexivity. Qed.
Lemma uncomment_free t : ~ In "#"%char t -> uncomment false t = t.
Proof.
  induction t as [|c t IH]; intros N; [reflexivity|]. cbn [uncomment]. rewrite IH by (intros I; apply N; right; exact I).
  destruct (Ascii.eqb c c_newline); [reflexivity|]. destruct (Ascii.eqb_spec c "#"%char) as [->|]; [exfalso; apply N; left; reflexivity|reflexivity].
Qed.
Lemma uncomment_app a t : ~ In "#"%char a -> uncomment false (a ++ t) = a ++ uncomment false t.
Proof.
  induction a as [|c a IH]; intros N; [reflexivity|]. cbn [app uncomment]. rewrite IH by (intros I; apply N; right; exact I).
  destruct (Ascii.eqb c c_newline); [reflexivity|]. destruct (Ascii.eqb_spec c "#"%char) as [->|]; [exfalso; apply N; left; reflexivity|reflexivity].
Qed.
Lemma uncomment_inside u t : ~ In c_newline u -> stops (fun c => negb (Ascii.eqb c c_newline)) t -> uncomment true (u ++ t) = uncomment false t.
Proof.
  intros N St. induction u as [|c u IH]; cbn [app].
  - destruct t as [|d t]; [reflexivity|]. cbn in St. apply negb_false_iff in St. cbn [uncomment]. rewrite St. reflexivity.
  - cbn [uncomment]. destruct (Ascii.eqb_spec c c_newline) as [->|]; [exfalso; apply N; left; reflexivity|]. cbn [orb].
    apply IH. intros I. apply N. right. exact I.
Qed.
Lemma to_newline t : exists u r, t = u ++ r /\ ~ In c_newline u /\ stops (fun c => negb (Ascii.eqb c c_newline)) r.
Proof.
  destruct (first_in c_newline t) as [H|(a & r & -> & H)].
  - exists t, []. rewrite app_nil_r. repeat split; auto.
  - exists a, (c_newline :: r). repeat split; auto.
Qed.
Theorem erase_comment t : erase comment t = uncomment false t.
Proof.
  unfold erase. assert (L : List.length t < S (List.length t)) by lia. revert L. generalize (S (List.length t)), (@None ascii). intros n.
  revert t. induction n as [|n IH]; intros t p L; [lia|]. cbn [erase_from].
  destruct (first_in "#"%char t) as [H|(a & r & -> & H)].
  - rewrite search_none; [symmetry; apply uncomment_free, H|]. intros a b q ->. apply comment_not_here. destruct b as [|c b]; [exact I|].
    cbn [stops]. destruct (Ascii.eqb_spec "#"%char c) as [<-|]; [|reflexivity]. exfalso. apply H, in_or_app. right. left. reflexivity.
  - destruct (to_newline r) as (u & r2 & -> & N & St).
    destruct (search_skip comment a p ("#"%char :: u ++ r2)) as (q & E).
    { intros a1 b q -> B. apply comment_not_here. destruct b as [|c b]; [congruence|]. cbn [app stops].
      destruct (Ascii.eqb_spec "#"%char c) as [<-|]; [|reflexivity]. exfalso. apply H, in_or_app. right. left. reflexivity. }
    destruct (comment_here u r2 q N St) as (m & M & S1 & R1). rewrite E, (search_here _ _ _ m M). cbn [skipped after].
    rewrite S1, app_nil_r, R1. rewrite uncomment_app by exact H. f_equal. cbn [uncomment].
    change (Ascii.eqb "#"%char c_newline) with false. cbn [orb Ascii.eqb Bool.eqb]. rewrite uncomment_inside by assumption.
    apply IH. rewrite !app_length in L. cbn in L. rewrite app_length in L. lia.
Qed.

(* ---------------------------------------------------------------- names *)
(** The name the pattern finds at the place of that of [D]. *)
Definition read_as (D : cls) : cls := match D with Fam BetaScaled | Fam BetaBinomial => Fam Beta | _ => D end.
Fixpoint prefixb (a b : text) : bool := match a, b with [], _ => true | x :: a, y :: b => Ascii.eqb x y && prefixb a b | _, _ => false end.
Lemma prefixb_app a b : prefixb a (a ++ b) = true.
Proof. induction a; cbn; [reflexivity|]. rewrite Ascii.eqb_refl. exact IHa. Qed.
Lemma prefixb_spec a b : prefixb a b = true -> exists c, b = a ++ c.
Proof. revert b. induction a as [|x a IH]; intros b H; [exists b; reflexivity|]. destruct b as [|y b]; [discriminate|]. cbn in H.
  apply andb_true_iff in H as [H1 H2]. apply Ascii.eqb_eq in H1 as ->. destruct (IH b H2) as (c & ->). exists c. reflexivity. Qed.
Fixpoint before_name (n : text) (l : list text) : list text * list text :=
  match l with [] => ([], []) | m :: r => if text_eqb m n then ([], r) else let '(a, b) := before_name n r in (m :: a, b) end.
Definition name_check (D : cls) : bool :=
  let n := name_of (read_as D) in
  let '(l1, l2) := before_name n all_names in
  (if list_eq_dec (list_eq_dec ascii_dec) all_names (l1 ++ n :: l2) then true else false) &&
  forallb (fun m => negb (prefixb m (name_of D))) l1 && prefixb n (name_of D) && forallb is_word (name_of D) && negb (text_eqb n []).
Lemma name_checked D : name_check D = true.
Proof. destruct D as [f| | | | | | |]; [destruct f|..]; vm_compute; reflexivity. Qed.
Lemma name_word D : forallb is_word (name_of D) = true.
Proof. pose proof (name_checked D) as H. unfold name_check in H. destruct (before_name _ _). repeat (apply andb_true_iff in H as [H ?]). assumption. Qed.
Lemma name_nonempty D : name_of D <> [].
Proof. destruct D as [f| | | | | | |]; [destruct f|..]; discriminate. Qed.
Lemma name_free D c : is_word c = false -> ~ In c (name_of D).
Proof. intros W. apply (forallb_not_in is_word); [apply name_word|exact W]. Qed.
Lemma name_order D : exists l1 l2 suf, all_names = l1 ++ name_of (read_as D) :: l2 /\ name_of D = name_of (read_as D) ++ suf /\
  (forall m u, In m l1 -> name_of D <> m ++ u) /\ forallb is_word suf = true.
Proof.
  pose proof (name_checked D) as H. pose proof (name_word D) as W. unfold name_check in H. destruct (before_name _ _) as [l1 l2].
  apply andb_true_iff in H as [H _]. apply andb_true_iff in H as [H _]. apply andb_true_iff in H as [H H1]. apply andb_true_iff in H as [H H2].
  destruct (list_eq_dec (list_eq_dec ascii_dec) all_names (l1 ++ name_of (read_as D) :: l2)) as [E|]; [|discriminate].
  apply prefixb_spec in H1 as (suf & E2). exists l1, l2, suf. repeat split; try assumption.
  - intros m u I E3. rewrite forallb_forall in H2. specialize (H2 m I). rewrite E3, prefixb_app in H2. discriminate.
  - rewrite E2, forallb_app in W. apply andb_true_iff in W as [_ W]. exact W.
Qed.
Lemma in_all_names n : In n all_names -> is_name n.
Proof. intros I. apply in_map_iff in I as (D & <- & _). exists D. reflexivity. Qed.
Lemma all_names_in D : In (name_of D) all_names.
Proof. unfold name_of, all_names. apply (in_map (fun c => txt (class_name c))). destruct D as [f| | | | | | |]; [destruct f|..]; cbv; tauto. Qed.
Lemma is_name_free n c : is_name n -> is_word c = false -> ~ In c n.
Proof. intros (D & ->). apply name_free. Qed.

(* ---------------------------------------------------------------- the pattern of a distribution *)
Lemma dist_alt_none {X} s (k : state -> option X) : (forall n u, is_name n -> rest s <> n ++ u) -> run (Group 2 dist_alt) s k = None.
Proof. intros H. cbn [run]. apply lits_none; [discriminate|]. intros n u I. apply H, in_all_names, I. Qed.
Lemma silent_app_r a b : silent (a ++ b) -> silent b.
Proof. intros H x n y N E. apply (H (a ++ x) n y N). rewrite E, app_assoc. reflexivity. Qed.
(** In a line without names there is no match, whatever comes after it. *)
Lemma quiet_here b t p : ~ In c_newline b -> silent b -> (t = [] \/ exists r, t = c_newline :: r) ->
  here dist_call {| prev := p; rest := b ++ t; caps := [] |} = None.
Proof.
  intros N S0 T. unfold here. cbn [prev rest caps]. unfold dist_call. rewrite run_cat, run_group, run_cat.
  apply run_none. intros u v E U. rewrite run_cat. apply dist_alt_none. rewrite past_rest. intros n w I ->.
  assert (Un : ~ In c_newline u) by (apply (forallb_not_in _ _ _ U); reflexivity).
  cbn [rest] in E. destruct T as [->|(r & ->)].
  - rewrite app_nil_r in E. apply (S0 u n w I). exact E.
  - symmetry in E. destruct (app_before c_newline u _ _ _ Un E) as (b2 & -> & E2).
    destruct (app_before c_newline n _ _ _ (is_name_free n c_newline I eq_refl) E2) as (b3 & -> & _).
    apply (S0 u n b3 I). reflexivity.
Qed.
(** Pairs of parentheses. *)
Fixpoint pairs (ps : list (text * text)) : text := match ps with [] => [] | (u, t) :: r => c_open :: u ++ c_close :: t ++ pairs r end.
Lemma shallow_pairs a : shallow a -> exists t ps, a = t ++ pairs ps /\ no_parens t /\ Forall (fun p => no_parens (fst p) /\ no_parens (snd p)) ps.
Proof.
  induction 1 as [t H|t u r Ht Hu Hr (t2 & ps & -> & H2 & Hps)].
  - exists t, []. rewrite app_nil_r. repeat split; try apply H. constructor.
  - exists t, ((u, t2) :: ps). cbn [pairs]. repeat split; try apply Ht. constructor; [split; assumption|exact Hps].
Qed.
Lemma pairs_stop ps t : stops not_paren (pairs ps ++ c_close :: t).
Proof. destruct ps as [|[u v] ps]; reflexivity. Qed.
Lemma past_join s u v t w : w = v ++ t -> past (past s u w) v t = past s (u ++ v) t.
Proof. intros ->. apply past_past. Qed.
Lemma pairs_some {X} (k : state -> option X) x ps t n : forall s,
  rest s = pairs ps ++ c_close :: t -> Forall (fun p => no_parens (fst p) /\ no_parens (snd p)) ps -> List.length ps <= n ->
  k (past s (pairs ps) (c_close :: t)) = Some x ->
  most (fun s k => run (Cat open_ (Cat (any not_paren) (Cat close_ (any not_paren)))) s k) k n s = Some x.
Proof.
  revert n. induction ps as [|[u v] ps IH]; intros n s E F L K.
  - cbn [pairs app] in E, K. rewrite <- E, past_nil in K. destruct n as [|n]; cbn [most]; [exact K|].
    rewrite run_cat. unfold open_. rewrite chr_none; [exact K|]. rewrite E. reflexivity.
  - destruct n as [|n]; [cbn in L; lia|]. cbn [most]. inversion F as [|? ? [Fu Fv] F2]; subst.
    match goal with |- match ?r with _ => _ end = _ => assert (R : r = Some x); [|rewrite R; reflexivity] end.
    cbn [pairs] in E, K. cbn [fst snd] in Fu, Fv.
    assert (E1 : rest s = c_open :: u ++ c_close :: v ++ pairs ps ++ c_close :: t).
    { rewrite E. cbn [app]. f_equal. rewrite <- app_assoc. cbn [app]. rewrite <- app_assoc. reflexivity. }
    unfold open_ at 1. rewrite run_cat.
    rewrite (chr_some _ _ _ _ _ E1) by reflexivity.
    rewrite run_cat.
    apply (greedy_some _ _ u (c_close :: v ++ pairs ps ++ c_close :: t)); [reflexivity|apply no_parens_forallb, Fu|reflexivity|].
    rewrite run_cat.
    unfold close_. rewrite (chr_some _ c_close (v ++ pairs ps ++ c_close :: t)) by (first [apply past_rest | reflexivity]).
    apply (greedy_some _ _ v (pairs ps ++ c_close :: t)); [reflexivity|apply no_parens_forallb, Fv|apply pairs_stop|].
    apply IH; [reflexivity|exact F2|cbn in L; lia|].
    rewrite !past_join; [|repeat (cbn [app]; rewrite <- ?app_assoc); reflexivity..]. exact K.
Qed.
Lemma pairs_length ps : List.length ps <= List.length (pairs ps).
Proof. induction ps as [|[u v] ps IH]; cbn; [lia|]. rewrite app_length. cbn. rewrite app_length. lia. Qed.
Lemma call_args_some {X} (k : state -> option X) x a t s :
  shallow a -> rest s = a ++ c_close :: t -> k (past s a (c_close :: t)) = Some x -> run call_args s k = Some x.
Proof.
  intros H E K. destruct (shallow_pairs a H) as (t0 & ps & -> & T & F). unfold call_args.
  rewrite run_cat.
  apply (greedy_some _ _ t0 (pairs ps ++ c_close :: t)); [rewrite E, <- app_assoc; reflexivity|apply no_parens_forallb, T|apply pairs_stop|].
  cbn [run]. apply (pairs_some k x ps t); [reflexivity|exact F| |].
  - rewrite past_rest, app_length. pose proof (pairs_length ps). lia.
  - rewrite past_join by reflexivity. exact K.
Qed.
Definition key (m : found) : text * text * text := (whole m, group m 2, group m 3).
Lemma call_here before D args t p :
  ~ In c_newline before -> leads before D -> shallow args ->
  exists m, here dist_call {| prev := p; rest := before ++ name_of D ++ c_open :: args ++ c_close :: t; caps := [] |} = Some m /\
    key m = (before ++ name_of D ++ c_open :: args ++ [c_close], name_of (read_as D), args) /\ rest (after m) = t.
Proof.
  intros N Ld Sh. destruct (name_order D) as (l1 & l2 & suf & EN & ED & Before & Ws).
  set (s := {| prev := p; rest := before ++ name_of D ++ c_open :: args ++ c_close :: t; caps := [] |}).
  set (k := fun s1 : state => Some {| skipped := []; whole := firstn (List.length (rest s) - List.length (rest s1)) (rest s); groups := caps s1; after := s1 |}).
  set (n := name_of (read_as D)) in *.
  set (s1 := past s before (name_of D ++ c_open :: args ++ c_close :: t)).
  set (s2 := past s1 n (suf ++ c_open :: args ++ c_close :: t)).
  set (s3 := past (capture s1 s2 2) suf (c_open :: args ++ c_close :: t)).
  set (s4 := past (capture s s3 1) [c_open] (args ++ c_close :: t)).
  set (s5 := capture s4 (past s4 args (c_close :: t)) 3).
  set (s6 := past s5 [c_close] t).
  assert (R : run dist_call s k = k s6).
  { unfold k at 2. unfold dist_call. cbn -[run dist_alt open_ close_ call_args].
    rewrite run_cat.
    rewrite run_group.
    rewrite run_cat.
    apply (lazy_some _ _ before (name_of D ++ c_open :: args ++ c_close :: t)); [reflexivity|apply dots_not_in, N| |].
    - intros a b -> B. rewrite run_cat.
      apply dist_alt_none. rewrite past_rest. intros m u Im Em.
      assert (Em2 : m ++ u = (b ++ name_of D) ++ c_open :: args ++ c_close :: t) by (rewrite <- Em, <- app_assoc; reflexivity).
      destruct (app_before c_open m _ _ _ (is_name_free m c_open Im eq_refl) Em2) as (w & E3 & _).
      exact (Ld a b m w Im eq_refl B E3).
    - fold s1. rewrite run_cat.
      rewrite run_group.
      unfold dist_alt. rewrite EN. apply (lits_some l1 n l2 (suf ++ c_open :: args ++ c_close :: t)).
      + intros m u Im Em. unfold s1 in Em. rewrite past_rest in Em.
        assert (Hm : is_name m) by (apply in_all_names; rewrite EN; apply in_or_app; left; exact Im).
        destruct (app_before c_open m u (name_of D) (args ++ c_close :: t) (is_name_free m c_open Hm eq_refl) (eq_sym Em)) as (w & E3 & _).
        exact (Before m w Im E3).
      + unfold s1. rewrite past_rest, ED, <- app_assoc. reflexivity.
      + fold s2. apply (lazy_some _ _ suf (c_open :: args ++ c_close :: t)).
        * reflexivity.
        * apply dots_not_in. apply (forallb_not_in is_word); [exact Ws|reflexivity].
        * intros a b E B. rewrite run_cat.
          apply chr_none. cbn [capture rest]. unfold past. cbn [rest]. destruct b as [|d b]; [congruence|]. cbn [app stops].
          destruct (Ascii.eqb_spec c_open d) as [<-|]; [|reflexivity]. exfalso. rewrite E, forallb_app in Ws.
          apply andb_true_iff in Ws as [_ Ws]. discriminate.
        * fold s3. rewrite run_cat. unfold open_.
          rewrite (chr_some _ c_open (args ++ c_close :: t)); [|reflexivity|reflexivity]. fold s4.
          rewrite run_cat.
          rewrite run_group.
          apply (call_args_some _ _ args t); [exact Sh|reflexivity|]. fold s5. unfold close_.
          rewrite (chr_some _ c_close t); [|reflexivity|reflexivity]. fold s6. reflexivity. }
  change (here dist_call s) with (run dist_call s k). rewrite R. unfold k. eexists. split; [reflexivity|]. split; [|reflexivity].
  unfold key, group. cbn [whole groups].
  assert (C : caps s6 = [(3, args); (1, before ++ name_of D); (2, n)]).
  { unfold s6, s5, s4, s3, s2, s1, capture, past. cbn [caps rest]. 
    f_equal; [f_equal; apply firstn_past|]. f_equal; [f_equal|].
    - unfold s. cbn [rest]. rewrite app_assoc. apply firstn_past.
    - f_equal. f_equal. rewrite ED, <- app_assoc. apply firstn_past. }
  rewrite C. cbn [find fst snd Nat.eqb]. f_equal; f_equal. unfold s6, s. rewrite past_rest. cbn [rest].
  replace (before ++ name_of D ++ c_open :: args ++ c_close :: t) with ((before ++ name_of D ++ c_open :: args ++ [c_close]) ++ t); [apply firstn_past|].
  rewrite <- !app_assoc. cbn [app]. rewrite <- app_assoc. reflexivity.
Qed.

(* ---------------------------------------------------------------- all the distributions of a text *)
Lemma finditer_skip n u p t :
  (forall a b q, u = a ++ b -> b <> [] -> here dist_call {| prev := q; rest := b ++ t; caps := [] |} = None) ->
  exists q, map key (finditer_from n dist_call p (u ++ t)) = map key (finditer_from n dist_call q t).
Proof.
  intros H. destruct (search_skip dist_call u p t H) as (q & E). exists q. destruct n as [|n]; [reflexivity|].
  cbn [finditer_from]. rewrite E. destruct (search_from dist_call q t) as [m|]; reflexivity.
Qed.
Definition whole_of (k : text * text * text) : text := fst (fst k).
Definition name_part (k : text * text * text) : text := snd (fst k).
Definition args_part (k : text * text * text) : text := snd k.
Definition line_key (l : line) : list (text * text * text) :=
  match l with
  | Code _ => []
  | Assign i v x D a _ => [((i ++ v ++ txt " = " ++ x) ++ name_of D ++ c_open :: a ++ [c_close], name_of (read_as D), a)]
  end.
Definition bare (l : line * text) : line * text := (fst l, []).
Lemma line_plain l : good_line l -> forall t, uncomment false (show_line l ++ t) = show_line l ++ uncomment false t.
Proof.
  intros G t. apply uncomment_app. destruct l as [c|i v x D a z]; cbn [good_line show_line] in *.
  - apply G.
  - destruct G as (_ & Pi & Wv & _ & Px & _ & _ & Na & Pz & _). intros I.
    repeat (apply in_app_or in I as [I|I]); try (now apply Pi in I); try (now apply Px in I).
    + apply (forallb_not_in is_word _ _ Wv (eq_refl : is_word "#"%char = false) I).
    + cbv in I. decompose [or] I; try discriminate; contradiction.
    + apply (name_free D "#"%char eq_refl I).
    + destruct I as [I|I]; [discriminate|]. apply in_app_or in I as [I|I]; [contradiction|]. destruct I as [I|I]; [discriminate|]. now apply Pz in I.
Qed.
Lemma uncomment_show ls t : Forall (fun lc => good_line (fst lc) /\ good_comment (snd lc)) ls ->
  uncomment false (show ls ++ t) = show (map bare ls) ++ uncomment false t.
Proof.
  induction ls as [|[l c] ls IH]; intros F; [reflexivity|]. inversion F as [|? ? [G C] F2]; subst. cbn [fst snd] in G, C.
  cbn [show map bare fst]. rewrite <- !app_assoc. rewrite line_plain by exact G. cbn [app]. f_equal.
  destruct C as [->|(u & -> & N)].
  - cbn [app uncomment]. change (Ascii.eqb c_newline c_newline) with true. cbv iota. f_equal. rewrite <- IH by exact F2. reflexivity.
  - cbn [app uncomment]. change (Ascii.eqb "#"%char c_newline) with false. cbn [orb Ascii.eqb Bool.eqb].
    rewrite <- ?app_assoc. cbn [app]. rewrite uncomment_inside by (exact N || reflexivity). cbn [uncomment].
    change (Ascii.eqb c_newline c_newline) with true. cbv iota. f_equal. apply IH, F2.
Qed.
Lemma skip_line n u p t : ~ In c_newline u -> silent u ->
  exists q, map key (finditer_from n dist_call p (u ++ c_newline :: t)) = map key (finditer_from n dist_call q t).
Proof.
  intros N S0. destruct (finditer_skip n (u ++ [c_newline]) p t) as (q & E).
  - intros a b q E B. destruct (app_split a b u [c_newline] (eq_sym E)) as [(w & -> & ->)|(w & -> & E2 & W)].
    + rewrite <- app_assoc. cbn [app]. apply quiet_here.
      * intros I. apply N, in_or_app. right. exact I.
      * apply (silent_app_r a), S0.
      * right. eexists. reflexivity.
    + destruct w as [|d w]; [congruence|]. destruct w; [|destruct w; discriminate]. cbn in E2. injection E2 as <- E2. congruence.
  - exists q. rewrite <- E, <- app_assoc. reflexivity.
Qed.
Lemma finditer_show fin ls : ~ In c_newline fin -> silent fin -> Forall (fun lc => good_line (fst lc)) ls ->
  forall n p, List.length ls < n -> map key (finditer_from n dist_call p (show (map bare ls) ++ fin)) = flat_map (fun lc => line_key (fst lc)) ls.
Proof.
  intros Nf Sf. induction ls as [|[l c] ls IH]; intros F n p L.
  - cbn [map show app flat_map]. destruct n as [|n]; [lia|]. cbn [finditer_from]. rewrite search_none; [reflexivity|].
    intros a b q E. rewrite <- (app_nil_r b). apply quiet_here; [| |left; reflexivity].
    + intros I. apply Nf. rewrite E. apply in_or_app. right. exact I.
    + apply (silent_app_r a). rewrite <- E. exact Sf.
  - inversion F as [|? ? G F2]; subst. cbn [fst] in G. cbn [map bare fst show flat_map]. cbn [List.length] in L.
    destruct l as [u|i v x D a z]; cbn [good_line show_line line_key] in *.
    + destruct G as [[N _] S0]. rewrite <- app_assoc. cbn [app].
      destruct (skip_line n u p (show (map bare ls) ++ fin) N S0) as (q & ->). apply IH; [exact F2|lia].
    + destruct G as (_ & Pi & Wv & _ & Px & Ld & Sh & Na & [Nz _] & Sz).
      destruct n as [|n]; [lia|].
      replace ((i ++ v ++ txt " = " ++ x ++ name_of D ++ c_open :: a ++ c_close :: z) ++ [] ++ c_newline :: show (map bare ls)) with
        ((i ++ v ++ txt " = " ++ x) ++ name_of D ++ c_open :: a ++ c_close :: (z ++ c_newline :: show (map bare ls)))
        by (repeat (cbn [app]; rewrite <- ?app_assoc); reflexivity).
      replace (((i ++ v ++ txt " = " ++ x) ++ name_of D ++ c_open :: a ++ c_close :: (z ++ c_newline :: show (map bare ls))) ++ fin) with
        ((i ++ v ++ txt " = " ++ x) ++ name_of D ++ c_open :: a ++ c_close :: (z ++ c_newline :: (show (map bare ls) ++ fin)))
        by (repeat (cbn [app]; rewrite <- ?app_assoc); reflexivity).
      destruct (call_here (i ++ v ++ txt " = " ++ x) D a (z ++ c_newline :: (show (map bare ls) ++ fin)) p) as (m & M & K & R); [|exact Ld|exact Sh|].
      { intros I. repeat (apply in_app_or in I as [I|I]); [now apply Pi in I|..|now apply Px in I].
        - apply (forallb_not_in is_word c_newline _ Wv eq_refl I).
        - cbv in I. decompose [or] I; try discriminate; contradiction. }
      cbn [finditer_from]. rewrite (search_here _ _ _ m M). cbn [map]. rewrite K, R. cbn [app]. f_equal.
      destruct (skip_line n z (prev (after m)) (show (map bare ls) ++ fin) Nz Sz) as (q & ->). apply IH; [exact F2|lia].
Qed.
Lemma show_length ls : List.length ls <= List.length (show ls).
Proof. induction ls as [|[l c] ls IH]; cbn; [lia|]. rewrite !app_length. cbn. lia. Qed.
(** The matches in the text of a function, comments or not. *)
Theorem matches_show ls fin e :
  e <> EBambi -> Forall (fun lc => good_line (fst lc) /\ good_comment (snd lc)) ls -> plain fin -> silent fin ->
  map key (match_preliz_dist (show ls ++ fin) e) = flat_map (fun lc => line_key (fst lc)) ls.
Proof.
  intros He F [Nf Hf] Sf. unfold match_preliz_dist.
  replace (match e with EBambi => prior_call | _ => dist_call end) with dist_call by (destruct e; [reflexivity|reflexivity|congruence]).
  rewrite erase_comment, uncomment_show by exact F. rewrite (uncomment_free fin) by exact Hf. unfold finditer. apply finditer_show; [exact Nf|exact Sf| |].
  - eapply Forall_impl; [|exact F]. intros [l c] [G _]. exact G.
  - rewrite app_length. pose proof (show_length (map bare ls)) as L. rewrite map_length in L. lia.
Qed.

(* ---------------------------------------------------------------- the variables *)
Lemma word_not_space c : is_word c = true -> is_space c = false.
Proof. destruct c as [[] [] [] [] [] [] [] []]; vm_compute; congruence. Qed.
Lemma lstrip_spaces sp t : forallb is_space sp = true -> lstrip (sp ++ t) = lstrip t.
Proof. induction sp as [|c sp IH]; intros H; [reflexivity|]. cbn in *. apply andb_true_iff in H as [-> H]. exact (IH H). Qed.
Lemma lstrip_word v t : forallb is_word v = true -> v <> [] -> lstrip (v ++ t) = v ++ t.
Proof. intros W N. destruct v as [|c v]; [congruence|]. cbn in *. apply andb_true_iff in W as [W _]. rewrite (word_not_space c W). reflexivity. Qed.
Lemma forallb_rev {A} (p : A -> bool) l : forallb p (rev l) = forallb p l.
Proof. induction l as [|a l IH]; [reflexivity|]. cbn. rewrite forallb_app, IH. cbn. rewrite andb_true_r. apply andb_comm. Qed.
Lemma strip_around sp v sp2 : forallb is_space sp = true -> forallb is_word v = true -> v <> [] -> forallb is_space sp2 = true ->
  strip (sp ++ v ++ sp2) = v.
Proof.
  intros S1 W N S2. unfold strip. rewrite lstrip_spaces by exact S1. rewrite lstrip_word by assumption. rewrite rev_app_distr.
  rewrite lstrip_spaces by (rewrite forallb_rev; exact S2). rewrite <- (app_nil_r (rev v)), lstrip_word.
  - rewrite app_nil_r. apply rev_involutive.
  - rewrite forallb_rev. exact W.
  - intros E. apply N. apply (f_equal (@rev _)) in E. rewrite rev_involutive in E. exact E.
Qed.
Lemma strip_word v : forallb is_word v = true -> v <> [] -> strip v = v.
Proof. intros W N. rewrite <- (strip_around [] v [] eq_refl W N eq_refl) at 2. rewrite app_nil_r. reflexivity. Qed.
Lemma var_of_whole i v rest : forallb is_space i = true -> forallb is_word v = true -> v <> [] ->
  strip (hd [] (split_on c_equal ((i ++ v ++ txt " = ") ++ rest))) = v.
Proof.
  intros Si W N. replace ((i ++ v ++ txt " = ") ++ rest) with ((i ++ v ++ txt " ") ++ c_equal :: (txt " " ++ rest)).
  - rewrite split_app.
    + cbn [hd]. apply strip_around; auto.
    + intros I. repeat (apply in_app_or in I as [I|I]).
      * apply (forallb_not_in is_space c_equal _ Si eq_refl I).
      * apply (forallb_not_in is_word c_equal _ W eq_refl I).
      * cbv in I. decompose [or] I; try discriminate; contradiction.
  - rewrite <- !app_assoc. reflexivity.
Qed.
Lemma txt_inj s1 s2 : txt s1 = txt s2 -> s1 = s2.
Proof. intros E. rewrite <- (string_of_list_ascii_of_string s1), <- (string_of_list_ascii_of_string s2). f_equal. exact E. Qed.
Lemma class_of_name D : class_of (name_of D) = Ok D.
Proof. destruct D as [f| | | | | | |]; [destruct f|..]; vm_compute; reflexivity. Qed.
Definition is_modifier (D : cls) : bool := match D with CMixture | CTruncated | CCensored | CHurdle => true | _ => false end.
Definition read_assigned (ls : list (line * text)) : list (text * cls) := map (fun p => (fst p, read_as (snd p))) (assigned ls).
Fixpoint put_dists (ps : list (text * cls)) (obs : text) (d : list (text * cls)) : list (text * cls) :=
  match ps with [] => d | (v, D) :: r => put_dists r obs (if text_eqb v obs then d else dict_put d v D) end.
Lemma dict_loop_keys ms1 ms2 obs d : map key ms1 = map key ms2 -> dict_loop ms1 obs d = dict_loop ms2 obs d.
Proof.
  revert ms2 d. induction ms1 as [|m ms1 IH]; intros [|m2 ms2] d E; try discriminate; [reflexivity|]. cbn [map] in E. injection E as E1 E2 E3.
  unfold key in E1. cbn [dict_loop]. rewrite E1, E2. destruct (text_eqb _ obs); [apply IH; assumption|].
  destruct (class_of (group m2 2)) as [c|]; [|reflexivity]. cbn [bind]. destruct (make_default c); [|reflexivity]. cbn [bind]. apply IH. assumption.
Qed.
Lemma dict_loop_show ms ls obs : Forall (fun lc => good_line (fst lc)) ls -> map key ms = flat_map (fun lc => line_key (fst lc)) ls ->
  forall d, dict_loop ms obs d =
    if existsb (fun p => is_modifier (snd p) && negb (text_eqb (fst p) obs)) (assigned ls) then Err TypeError else Ok (put_dists (read_assigned ls) obs d).
Proof.
  revert ms. induction ls as [|[l c] ls IH]; intros ms F E d.
  - destruct ms; [reflexivity|discriminate].
  - inversion F as [|? ? G F2]; subst. cbn [fst] in G. cbn [flat_map fst] in E. destruct l as [u|i v x D a z]; cbn [line_key app] in E.
    + cbn [assigned read_assigned]. apply IH; assumption.
    + destruct ms as [|m ms]; [discriminate|]. cbn [map app] in E.
      pose proof (f_equal (fun l => whole_of (hd (key m) l)) E) as E1. pose proof (f_equal (fun l => name_part (hd (key m) l)) E) as E2.
      pose proof (f_equal (@tl _) E) as E4. cbn [hd tl] in E1, E2, E4. unfold whole_of, name_part, key in E1, E2. cbn [fst snd] in E1, E2. clear E. cbn [good_line] in G.
      destruct G as (Si & _ & W & N & _). cbn [dict_loop]. rewrite E1, E2.
      replace ((i ++ v ++ txt " = " ++ x) ++ name_of D ++ c_open :: a ++ [c_close]) with ((i ++ v ++ txt " = ") ++ (x ++ name_of D ++ c_open :: a ++ [c_close]))
        by (rewrite <- !app_assoc; reflexivity).
      rewrite var_of_whole by assumption. cbn [assigned read_assigned existsb map fst snd put_dists].
      destruct (text_eqb v obs) eqn:Q.
      * rewrite andb_false_r. cbn [orb]. apply IH; assumption.
      * rewrite class_of_name. cbn [bind negb]. rewrite andb_true_r. destruct (is_modifier D) eqn:Mo.
        -- destruct D as [f| | | | | | |]; try discriminate; reflexivity.
        -- replace (make_default (read_as D)) with (Ok (read_as D)) by (destruct D as [[]| | | | | | |]; try discriminate; reflexivity).
           cbn [bind orb]. apply IH; assumption.
Qed.

(* ---------------------------------------------------------------- the returned names *)
Lemma strip_lead sp t : forallb is_space sp = true -> strip (sp ++ t) = strip t.
Proof. intros H. unfold strip. rewrite lstrip_spaces by exact H. reflexivity. Qed.
Lemma split_commas vs : vs <> [] -> Forall (fun v => ~ In c_comma v /\ strip v = v) vs -> map strip (split_on c_comma (commas vs)) = vs.
Proof.
  intros N F. enough (H : forall sp, forallb is_space sp = true -> ~ In c_comma sp -> map strip (split_on c_comma (sp ++ commas vs)) = vs) by exact (H [] eq_refl (fun x => x)).
  induction vs as [|v vs IH]; [congruence|]. intros sp Hs Ns. inversion F as [|? ? [Nv Sv] F2]; subst.
  assert (Nsv : ~ In c_comma (sp ++ v)) by (intros I; apply in_app_or in I as [I|I]; contradiction).
  destruct vs as [|v2 vs].
  - cbn [commas]. rewrite split_free by exact Nsv. cbn [map]. rewrite strip_lead by exact Hs. rewrite Sv. reflexivity.
  - change (commas (v :: v2 :: vs)) with (v ++ c_comma :: (txt " " ++ commas (v2 :: vs))). rewrite app_assoc, split_app by exact Nsv.
    cbn [map]. rewrite strip_lead by exact Hs. rewrite Sv. f_equal. apply IH; [discriminate|exact F2|reflexivity|].
    cbv. intros [E|[]]. discriminate.
Qed.
Definition ret : text := txt "return ".
Lemma ret_overlap b w t r : ret = b ++ w -> b <> [] -> w <> [] -> w ++ t = ret ++ r -> False.
Proof.
  intros E B W H. do 7 (destruct b as [|? b]; [first [congruence | cbv in E; injection E; intros; subst; first [congruence | discriminate H]] | ]).
  apply (f_equal (@List.length _)) in E. rewrite app_length in E. cbn in E. destruct w; [congruence|]. cbn in E. lia.
Qed.
Lemma some_some {X} p (k : state -> option X) u t s x :
  rest s = u ++ t -> u <> [] -> forallb p u = true -> stops p t -> k (past s u t) = Some x -> run (some p) s k = Some x.
Proof.
  intros E N A St K. destruct u as [|c u]; [congruence|]. cbn in A. apply andb_true_iff in A as [A1 A2]. unfold some. rewrite run_cat.
  rewrite (chr_some _ c (u ++ t)) by assumption. apply (greedy_some _ _ u t); [reflexivity|exact A2|exact St|]. rewrite past_join by reflexivity. exact K.
Qed.
Fixpoint more_vars (vs : list text) : text := match vs with [] => [] | v :: r => txt ", " ++ v ++ more_vars r end.
Lemma commas_more v vs : commas (v :: vs) = v ++ more_vars vs.
Proof. revert v. induction vs as [|v2 vs IH]; intros v; [cbn; rewrite app_nil_r; reflexivity|].
  change (commas (v :: v2 :: vs)) with (v ++ txt ", " ++ commas (v2 :: vs)). rewrite IH. reflexivity. Qed.
Definition good_var (v : text) : Prop := forallb is_word v = true /\ v <> [].
Lemma more_stop vs t : stops is_word (more_vars vs ++ c_newline :: t).
Proof. destruct vs; reflexivity. Qed.
Lemma more_some {X} (k : state -> option X) x vs n : forall s,
  rest s = more_vars vs ++ [c_newline] -> Forall good_var vs -> List.length vs <= n -> k (past s (more_vars vs) [c_newline]) = Some x ->
  most (fun s k => run (Cat (any is_space) (Cat (lit (txt ",")) (Cat (any is_space) (some is_word)))) s k) k n s = Some x.
Proof.
  revert n. induction vs as [|v vs IH]; intros n s E F L K.
  - cbn [more_vars app] in *. rewrite <- E, past_nil in K. destruct n as [|n]; cbn [most]; [exact K|].
    rewrite run_cat. unfold any at 1. rewrite run_none; [exact K|]. intros u t E2 _. rewrite run_cat. apply lit_none. rewrite past_rest. intros t2 ->.
    rewrite E in E2. apply (f_equal (fun l => In c_comma l)) in E2. assert (H : In c_comma [c_newline]).
    { rewrite E2. apply in_or_app. right. left. reflexivity. } destruct H as [H|[]]. discriminate.
  - destruct n as [|n]; [cbn in L; lia|]. inversion F as [|? ? [W N] F2]; subst. cbn [most].
    match goal with |- match ?r with _ => _ end = _ => assert (R : r = Some x); [|rewrite R; reflexivity] end.
    cbn [more_vars] in E, K. rewrite run_cat.
    apply (greedy_some _ _ [] (txt ", " ++ (v ++ more_vars vs ++ [c_newline]))); [rewrite E, <- !app_assoc; reflexivity|reflexivity|reflexivity|].
    rewrite run_cat. rewrite (lit_some (txt ",") (txt " " ++ (v ++ more_vars vs ++ [c_newline]))) by reflexivity.
    rewrite run_cat. apply (greedy_some _ _ (txt " ") (v ++ more_vars vs ++ [c_newline])); [reflexivity|reflexivity| |].
    { destruct v as [|c v]; [congruence|]. cbn in *. apply andb_true_iff in W as [W _]. apply word_not_space, W. }
    apply (some_some _ _ v (more_vars vs ++ [c_newline])); [reflexivity|exact N|exact W|apply more_stop|].
    apply IH; [reflexivity|exact F2|cbn in L; lia|].
    rewrite !past_join; [|repeat (cbn [app]; rewrite <- ?app_assoc); reflexivity..]. exact K.
Qed.
Lemma more_length vs : List.length vs <= List.length (more_vars vs).
Proof. induction vs as [|v vs IH]; cbn; [lia|]. rewrite app_length. lia. Qed.
Theorem return_variables B vs : vs <> [] -> Forall good_var vs -> (forall a b, B <> a ++ ret ++ b) ->
  match_return_variables (B ++ ret ++ commas vs ++ [c_newline]) = Ok vs.
Proof.
  intros N F H. unfold match_return_variables, search.
  destruct (search_skip return_re B None (ret ++ commas vs ++ [c_newline])) as (q & E).
  { intros a b q -> Bn. unfold here, return_re. cbn [prev rest caps]. rewrite run_cat. apply lit_none. cbn [rest]. intros t E.
    fold ret in E. destruct (app_split _ _ _ _ (eq_sym E)) as [(w & -> & E2)|(w & E1 & E2 & W)].
    - apply (H a w). reflexivity.
    - apply (ret_overlap b w t (commas vs ++ [c_newline]) E1 Bn W). symmetry. exact E2. }
  destruct vs as [|v vs]; [congruence|]. rewrite commas_more in *.
  set (s := {| prev := q; rest := ret ++ (v ++ more_vars vs) ++ [c_newline]; caps := [] |}).
  set (k := fun s1 : state => Some {| skipped := []; whole := firstn (List.length (rest s) - List.length (rest s1)) (rest s); groups := caps s1; after := s1 |}).
  set (s1 := past s ret ((v ++ more_vars vs) ++ [c_newline])).
  set (s2 := past s1 (v ++ more_vars vs) [c_newline]).
  assert (R : run return_re s k = k (capture s1 s2 1)).
  { unfold k at 2. unfold return_re. rewrite run_cat. fold ret.
    rewrite (lit_some ret ((v ++ more_vars vs) ++ [c_newline])) by reflexivity. fold s1. rewrite run_group, run_cat.
    inversion F as [|? ? [W Nv] F2]; subst.
    apply (some_some _ _ v (more_vars vs ++ [c_newline])); [unfold s1; rewrite past_rest, <- app_assoc; reflexivity|exact Nv|exact W|apply more_stop|].
    cbn [run]. apply (more_some _ _ vs); [reflexivity|exact F2|rewrite past_rest, app_length; pose proof (more_length vs); lia|].
    rewrite past_join by reflexivity. fold s2. reflexivity. }
  change (here return_re s) with (run return_re s k) in *.
  rewrite E. rewrite (search_here return_re q _ {| skipped := []; whole := firstn (List.length (rest s) - List.length [c_newline]) (rest s); groups := caps (capture s1 s2 1); after := capture s1 s2 1 |}) by exact R.
  unfold group. cbn [groups].
  assert (C : caps (capture s1 s2 1) = [(1, v ++ more_vars vs)]).
  { unfold s2, s1, capture, past. cbn [caps rest]. f_equal. f_equal. apply firstn_past. }
  rewrite C. cbn [find fst snd Nat.eqb]. f_equal. rewrite <- commas_more. apply split_commas; [discriminate|].
  eapply Forall_impl; [|exact F]. intros w [W Nw]. split; [apply (forallb_not_in is_word _ _ W); reflexivity|apply strip_word; assumption].
Qed.

(* ---------------------------------------------------------------- words *)
Definition inb (names : list text) (w : text) : bool := existsb (text_eqb w) names.
Lemma inb_spec names w : inb names w = true <-> In w names.
Proof. unfold inb. rewrite existsb_exists. split; [intros (x & I & E); apply text_eqb_spec in E; subst; exact I|intros I; exists w; split; [exact I|apply text_eqb_refl]]. Qed.
Fixpoint drop_word (t : text) : text := match t with c :: r => if is_word c then drop_word r else t | [] => [] end.
Lemma words_from_app w u t : forallb is_word u = true -> words_from w (u ++ t) = words_from (w ++ u) t.
Proof. revert w. induction u as [|c u IH]; intros w A; [rewrite app_nil_r; reflexivity|]. cbn in A. apply andb_true_iff in A as [A1 A2].
  cbn [app words_from]. rewrite A1, IH by exact A2. rewrite <- app_assoc. reflexivity. Qed.
Lemma words_from_stop w t : w <> [] -> stops is_word t -> words_from w t = w :: words t.
Proof. intros N S0. unfold words. destruct t as [|c t]; cbn [stops words_from] in *; [destruct w; [congruence|reflexivity]|]. rewrite S0. destruct w; [congruence|reflexivity]. Qed.
Lemma words_word u t : forallb is_word u = true -> u <> [] -> stops is_word t -> words (u ++ t) = u :: words t.
Proof. intros A N S0. unfold words at 1. rewrite words_from_app by exact A. cbn [app]. apply words_from_stop; assumption. Qed.
Lemma to_nonword t : exists u r, t = u ++ r /\ forallb is_word u = true /\ stops is_word r /\ drop_word t = r.
Proof.
  induction t as [|c t (u & r & -> & A & S0 & D)]; [exists [], []; repeat split|]. cbn [drop_word]. destruct (is_word c) eqn:W.
  - exists (c :: u), r. cbn. rewrite W. repeat split; assumption.
  - exists [], (c :: u ++ r). repeat split; exact W.
Qed.
Lemma boundary_false {X} s (k : state -> option X) : wordy (prev s) = wordy (hd_error (rest s)) -> run Boundary s k = None.
Proof. intros E. cbn. rewrite E, xorb_nilpotent. reflexivity. Qed.
Lemma boundary_true {X} s (k : state -> option X) : wordy (prev s) <> wordy (hd_error (rest s)) -> run Boundary s k = k s.
Proof. intros E. cbn. destruct (wordy (prev s)), (wordy (hd_error (rest s))); cbn; congruence. Qed.
Lemma stops_wordy t : stops is_word t -> wordy (hd_error t) = false.
Proof. destruct t as [|c t]; cbn; auto. Qed.
Lemma past_word_prev s u t : u <> [] -> forallb is_word u = true -> wordy (prev (past s u t)) = true.
Proof.
  intros N A. unfold past. cbn [prev]. destruct (rev u) as [|c w] eqn:E; [exfalso; apply N; apply (f_equal (@rev _)) in E; rewrite rev_involutive in E; exact E|].
  cbn. rewrite <- forallb_rev, E in A. cbn in A. apply andb_true_iff in A as [A _]. exact A.
Qed.
(** At the start of a word, the pattern finds that word if it is one of the names and nothing otherwise. *)
Lemma name_here {X} n w t s (k : state -> option X) :
  good_var n -> good_var w -> rest s = w ++ t -> stops is_word t -> wordy (prev s) = false ->
  run (Cat Boundary (Cat (lit n) Boundary)) s k = if text_eqb w n then k (past s w t) else None.
Proof.
  intros [Wn Nn] [Ww Nw] E St P. rewrite run_cat, boundary_true.
  2: { rewrite P, E. destruct w as [|c w]; [congruence|]. cbn in *. apply andb_true_iff in Ww as [-> _]. discriminate. }
  rewrite run_cat. destruct (text_eqb w n) eqn:Q.
  - apply text_eqb_spec in Q as <-. rewrite (lit_some w t) by exact E. apply boundary_true.
    rewrite past_word_prev by assumption. rewrite past_rest, stops_wordy by exact St. discriminate.
  - destruct (prefixb n (rest s)) eqn:Pr.
    + apply prefixb_spec in Pr as (r & Er). rewrite (lit_some n r) by exact Er. apply boundary_false.
      rewrite past_word_prev by assumption. rewrite past_rest. rewrite E in Er.
      destruct (app_split _ _ _ _ Er) as [(x & -> & E2)|(x & -> & -> & Nx)].
      * (* w longer than n would be needed *)
        exfalso. destruct x as [|c x]; [rewrite app_nil_r, text_eqb_refl in Q; discriminate|].
        rewrite forallb_app in Wn. apply andb_true_iff in Wn as [_ Wn]. cbn in Wn. apply andb_true_iff in Wn as [Wc _].
        cbn in E2. subst t. cbn in St. congruence.
      * destruct x as [|c x]; [congruence|]. cbn. rewrite forallb_app in Ww. apply andb_true_iff in Ww as [_ Ww]. cbn in Ww.
        apply andb_true_iff in Ww as [Wc _]. rewrite Wc. reflexivity.
    + apply lit_none. intros r Er. rewrite Er, prefixb_app in Pr. discriminate.
Qed.
Lemma words_here {X} names w t s (k : state -> option X) :
  names <> [] -> Forall good_var names -> good_var w -> rest s = w ++ t -> stops is_word t -> wordy (prev s) = false ->
  (forall s1, exists x, k s1 = Some x) ->
  run (words_re names) s k = if inb names w then k (past s w t) else None.
Proof.
  intros N F W E St P K. unfold words_re. destruct names as [|n0 names]; [congruence|]. clear N. revert n0 F. induction names as [|n1 names IH]; intros n0 F.
  - inversion F; subst. cbn [map alt inb existsb]. rewrite orb_false_r. apply name_here; assumption.
  - inversion F as [|? ? F1 F2]; subst. cbn [map]. rewrite alt_cons, (name_here n0 w t) by assumption. unfold inb. cbn [existsb].
    destruct (text_eqb w n0); [cbn [orb]; destruct (K (past s w t)) as (x & ->); reflexivity|]. cbn [orb]. apply IH, F2.
Qed.
Lemma words_not_here {X} names s (k : state -> option X) :
  names <> [] -> Forall good_var names -> (wordy (prev s) = true \/ wordy (hd_error (rest s)) = false) -> run (words_re names) s k = None.
Proof.
  intros N F H. unfold words_re. destruct names as [|n0 names0] eqn:En; [congruence|]. rewrite <- En in *. apply alt_none; [rewrite En; discriminate|].
  apply Forall_forall. intros r I. apply in_map_iff in I as (n & <- & I). rewrite Forall_forall in F. destruct (F n I) as [W Nn].
  rewrite run_cat. destruct (Bool.bool_dec (wordy (prev s)) (wordy (hd_error (rest s)))) as [Q|Q]; [apply boundary_false, Q|].
  rewrite boundary_true by exact Q. rewrite run_cat. apply lit_none. intros t E. destruct n as [|c n]; [congruence|]. cbn in W.
  apply andb_true_iff in W as [W _]. rewrite E in H, Q. cbn in H, Q. rewrite W in H, Q. destruct H; congruence.
Qed.
(** The pattern \ba\b|\bb\b|... finds the first word of the text that is one of the names. *)
Theorem search_words names t : names <> [] -> Forall good_var names ->
  match search (words_re names) t with Some m => Some (whole m) | None => None end = find (inb names) (words t).
Proof.
  intros N F. unfold search.
  assert (H : forall t p, match search_from (words_re names) p t with Some m => Some (whole m) | None => None end =
    find (inb names) (words (if wordy p then drop_word t else t))); [|exact (H t None)].
  clear t. induction t as [|c t IH]; intros p.
  - cbn [search_from]. unfold here. cbn [rest prev caps]. rewrite words_not_here by (auto; right; reflexivity). destruct (wordy p); reflexivity.
  - cbn [search_from].
    assert (Next : forall q, q = Some c -> match match search_from (words_re names) (Some c) t with
                     | Some m => Some {| skipped := c :: skipped m; whole := whole m; groups := groups m; after := after m |} | None => None end
                   with Some m => Some (whole m) | None => None end = find (inb names) (words (if is_word c then drop_word t else t))).
    { intros q _. specialize (IH (Some c)). cbn [wordy] in IH. rewrite <- IH. destruct (search_from (words_re names) (Some c) t); reflexivity. }
    specialize (Next _ eq_refl). destruct (wordy p) eqn:P.
    + unfold here. cbn [rest prev caps]. rewrite words_not_here by (auto; left; exact P). rewrite Next. cbn [drop_word].
      destruct (is_word c) eqn:W; [reflexivity|]. unfold words. cbn [words_from]. rewrite W. reflexivity.
    + destruct (is_word c) eqn:W.
      * destruct (to_nonword (c :: t)) as (w & r & E & A & St & D). cbn [drop_word] in D. rewrite W in D.
        assert (Nw : w <> []) by (intros ->; cbn in E; subst r; cbn in St; congruence).
        rewrite E, words_word by assumption. unfold here. cbn [rest prev caps].
        set (s := {| prev := p; rest := w ++ r; caps := [] |}). rewrite (words_here names w r s); [|exact N|exact F|split; assumption|reflexivity|exact St|exact P|intros s1; eexists; reflexivity].
        cbn [find]. destruct (inb names w) eqn:Q.
        -- cbn [whole]. rewrite past_rest. f_equal. apply firstn_past.
        -- rewrite Next, D. reflexivity.
      * unfold here. cbn [rest prev caps]. rewrite words_not_here by (auto; right; exact W). rewrite Next. unfold words. cbn [words_from]. rewrite W. reflexivity.
Qed.

(* ---------------------------------------------------------------- arguments *)
Definition offset (e : engine) : Z := match e with EPymc => 1 | _ => 0 end.
Lemma no_star_after t : ~ In "*"%char t -> after_stars t = None.
Proof.
  induction t as [|c t IH]; intros N; [reflexivity|]. assert (IHt := IH (fun I => N (or_intror I))). cbn [after_stars].
  destruct c as [[] [] [] [] [] [] [] []]; try exact IHt. exfalso. apply N. left. reflexivity.
Qed.
Lemma after_stars_none t : (forall a b, t <> a ++ stars ++ b) -> after_stars t = None.
Proof.
  induction t as [|c t IH]; intros H; [reflexivity|].
  assert (IHt : after_stars t = None) by (apply IH; intros a b ->; apply (H (c :: a) b); reflexivity).
  cbn [after_stars]. destruct c as [[] [] [] [] [] [] [] []]; try exact IHt.
  destruct t as [|d t]; [reflexivity|]. destruct d as [[] [] [] [] [] [] [] []]; try exact IHt. exfalso. apply (H [] t). reflexivity.
Qed.
Lemma after_stars_some base p : ~ In "*"%char base -> after_stars (base ++ stars ++ p) = Some p.
Proof.
  induction base as [|c t IH]; intros N; [reflexivity|]. assert (IHt := IH (fun I => N (or_intror I))). cbn [app after_stars].
  destruct c as [[] [] [] [] [] [] [] []]; try exact IHt. exfalso. apply N. left. reflexivity.
Qed.
Lemma before_stars_id p : ~ In "*"%char p -> before_stars p = p.
Proof.
  induction p as [|c t IH]; intros N; [reflexivity|]. assert (IHt := IH (fun I => N (or_intror I))). cbn [before_stars].
  destruct c as [[] [] [] [] [] [] [] []]; rewrite ?IHt; try reflexivity. exfalso. apply N. left. reflexivity.
Qed.
Lemma first_find params t v : first_param params t v -> find (inb params) (words t) = Some v.
Proof.
  intros (l & r & -> & I & H). induction l as [|w l IH]; cbn [app find].
  - apply inb_spec in I. rewrite I. reflexivity.
  - destruct (inb params w) eqn:Q; [apply inb_spec in Q; exfalso; apply (H w); [left; reflexivity|exact Q]|]. apply IH. intros x J. apply H. right. exact J.
Qed.
Lemma identifier_isidentifier v : identifier v -> isidentifier v = true.
Proof.
  intros [W D]. unfold isidentifier. destruct v as [|c v]; [contradiction|]. rewrite W, andb_true_r. apply negb_true_iff. unfold is_digit.
  destruct (48 <=? code c)%nat eqn:A, (code c <=? 57)%nat eqn:B; try reflexivity. apply Nat.leb_le in A, B. lia.
Qed.
Lemma isidentifier_word t : isidentifier t = true -> forallb is_word t = true.
Proof. destruct t; [discriminate|]. cbn [isidentifier]. intros H. apply andb_true_iff in H as [_ H]. exact H. Qed.
Lemma split_ends sep q f : ~ In sep f -> exists p ps, split_on sep (q ++ sep :: f) = p :: ps ++ [f].
Proof.
  intros N. induction q as [|c q (p & ps & IH)].
  - exists [], []. pose proof (split_app sep [] f (fun x => x)) as Es. cbn [app] in Es |- *. rewrite Es, split_free by exact N. reflexivity.
  - cbn [app split_on]. rewrite IH. destruct (Ascii.eqb c sep); [exists [], (p :: ps)|exists (c :: p), ps]; reflexivity.
Qed.
Lemma last_piece_dot path f : (path = [] \/ exists q, path = q ++ txt ".") -> ~ In "."%char f -> last_piece (path ++ f) = f.
Proof.
  intros [->|(q & ->)] N; unfold last_piece.
  - cbn [app]. rewrite split_free by exact N. reflexivity.
  - rewrite <- app_assoc. change (txt "." ++ f) with ("."%char :: f). destruct (split_ends "."%char q f N) as (p & ps & ->).
    rewrite app_comm_cons. apply last_last.
Qed.
Lemma parse_item params item u off idx :
  params <> [] -> Forall identifier params -> uses params item u ->
  parse_argument (words_re params) off idx item = match u with Some (f, v) => [(f, v, (Z.of_nat idx - off)%Z)] | None => [] end.
Proof.
  intros N F U.
  assert (G : Forall good_var params).
  { eapply Forall_impl; [|exact F]. intros v [W D]. split; [exact W|]. destruct v; [contradiction|discriminate]. }
  pose proof (search_words params item N G) as Sw. unfold parse_argument.
  assert (First : forall v, first_param params item v -> exists m, search (words_re params) item = Some m /\ whole m = v).
  { intros v H. rewrite (first_find params item v H) in Sw. destruct (search (words_re params) item) as [m|]; [|discriminate]. exists m.
    split; [reflexivity|]. injection Sw as ->. reflexivity. }
  destruct U as [v I|path f inner v Hp Pp Pf Df St H|base power v Nb Np Sp H|t H].
  - assert (Fi : identifier v) by (rewrite Forall_forall in F; apply F, I). destruct (First v) as (m & -> & ->).
    + exists [], []. destruct Fi as [W D]. split; [|split; [exact I|intros ? []]].
      rewrite <- (app_nil_r v) at 1. rewrite words_word; [reflexivity|exact W|destruct v; [contradiction|discriminate]|exact Logic.I].
    + rewrite identifier_isidentifier by exact Fi. reflexivity.
  - destruct (First v H) as (m & -> & ->). destruct (isidentifier (path ++ f ++ c_open :: inner)) eqn:Q.
    + exfalso. apply isidentifier_word in Q. apply (forallb_not_in is_word c_open _ Q eq_refl). apply in_or_app. right. apply in_or_app. right. left. reflexivity.
    + rewrite after_stars_none by exact St. rewrite app_assoc, split_app.
      * cbn [hd]. rewrite last_piece_dot by assumption. reflexivity.
      * intros I. apply in_app_or in I as [I|I]; [apply Pp in I|apply Pf in I]; contradiction.
  - destruct (First v H) as (m & -> & ->). destruct (isidentifier (base ++ stars ++ power)) eqn:Q.
    + exfalso. apply isidentifier_word in Q. apply (forallb_not_in is_word "*"%char _ Q eq_refl). apply in_or_app. right. left. reflexivity.
    + rewrite after_stars_some by exact Nb. rewrite before_stars_id by exact Np. rewrite Sp. reflexivity.
  - destruct (search (words_re params) t) as [m|]; [|reflexivity]. exfalso. symmetry in Sw. apply find_some in Sw as [I Q].
    apply inb_spec in Q. exact (H _ I Q).
Qed.
Definition triple (u : text * (cls * Z * option text)) : option text * text * Z := (snd (snd u), fst u, snd (fst (snd u))).
Lemma parse_items params e items us D : params <> [] -> Forall identifier params -> Forall2 (uses params) items us ->
  forall idx, parse_arguments_from idx (words_re params) e items = map triple (numbered D (Z.of_nat idx - offset e) us).
Proof.
  intros N F H. induction H as [|item u items us U H IH]; intros idx; [reflexivity|]. cbn [parse_arguments_from].
  change (match e with EPymc => 1%Z | _ => 0%Z end) with (offset e). rewrite (parse_item params item u _ _ N F U), IH.
  replace (Z.of_nat (S idx) - offset e)%Z with (Z.of_nat idx - offset e + 1)%Z by lia. destruct u as [[f v]|]; reflexivity.
Qed.
Lemma numbered_class D i us u : In u (numbered D i us) -> fst (fst (snd u)) = D.
Proof. revert i. induction us as [|[[f v]|] us IH]; intros i I; cbn in I; [contradiction|destruct I as [<-|I]; [reflexivity|exact (IH _ I)]|exact (IH _ I)]. Qed.
Fixpoint put_uses {A} (us : list (text * A)) (d : list (text * A)) : list (text * A) :=
  match us with [] => d | (v, x) :: r => put_uses r (dict_put d v x) end.
Lemma put_all_uses D us : (forall u, In u us -> fst (fst (snd u)) = D) -> forall d, put_all D (map triple us) d = put_uses us d.
Proof.
  induction us as [|[v [[D2 i] f]] us IH]; intros H d; [reflexivity|]. assert (E := H _ (or_introl eq_refl)). cbn in E. subst D2.
  cbn [map triple put_all put_uses fst snd]. apply IH. intros u I. apply H. right. exact I.
Qed.
Lemma put_uses_app {A} (a b : list (text * A)) d : put_uses (a ++ b) d = put_uses b (put_uses a d).
Proof. revert d. induction a as [|[v x] a IH]; intros d; [reflexivity|]. cbn. apply IH. Qed.
Lemma find_put_uses {A} (us : list (text * A)) p : forall d, dict_find (put_uses us d) p = match last_use p us with Some x => Some x | None => dict_find d p end.
Proof.
  induction us as [|[v x] us IH]; intros d; [reflexivity|]. cbn [put_uses]. rewrite IH. unfold last_use. cbn [rev].
  assert (FA : forall l, find (fun u : text * A => text_eqb (fst u) p) (l ++ [(v, x)]) = match find (fun u : text * A => text_eqb (fst u) p) l with Some u => Some u | None => if text_eqb v p then Some (v, x) else None end).
  { induction l as [|y l IHl]; cbn; [reflexivity|]. destruct (text_eqb (fst y) p); [reflexivity|exact IHl]. }
  rewrite FA. destruct (find _ (rev us)); [reflexivity|]. rewrite find_put.
  destruct (text_eqb p v) eqn:Q.
  - apply text_eqb_spec in Q as ->. rewrite text_eqb_refl. reflexivity.
  - rewrite text_eqb_neq; [reflexivity|]. intros ->. rewrite text_eqb_refl in Q. discriminate.
Qed.
Definition reread (u : text * (cls * Z * option text)) := (fst u, (read_as (fst (fst (snd u))), snd (fst (snd u)), snd (snd u))).
Lemma numbered_reread D i us : map reread (numbered D i us) = numbered (read_as D) i us.
Proof. revert i. induction us as [|[[f v]|] us IH]; intros i; cbn; [reflexivity|unfold reread at 1; cbn; f_equal; apply IH|apply IH]. Qed.
Lemma pred_loop_show params e : e <> EBambi -> params <> [] -> Forall identifier params -> forall ls ms uss,
  map key ms = flat_map (fun lc => line_key (fst lc)) ls -> Forall2 (line_uses params (- offset e)) ls uss ->
  (forall u, In u (List.concat uss) -> make_initial (fst (fst (snd u))) = Ok (fst (fst (snd u)))) ->
  forall d, pred_loop ms (words_re params) e d = Ok (put_uses (map reread (List.concat uss)) d).
Proof.
  intros He N F ls ms uss E U. revert ms E. induction U as [|[l c] us ls uss U1 U IH]; intros ms E In0 d.
  - destruct ms; [reflexivity|discriminate].
  - cbn [flat_map fst] in E. cbn [List.concat] in *. unfold line_uses in U1. cbn [fst] in U1. destruct l as [t|i v x D a z].
    + subst us. cbn [line_key app] in *. apply IH; assumption.
    + destruct U1 as (items & uo & Ni & -> & Gi & Ui & ->). cbn [line_key app] in E. destruct ms as [|m ms]; [discriminate|]. cbn [map] in E.
      pose proof (f_equal (fun l => args_part (hd (key m) l)) E) as E1. pose proof (f_equal (fun l => name_part (hd (key m) l)) E) as E2.
      pose proof (f_equal (@tl _) E) as E4. cbn [hd tl] in E1, E2, E4. unfold args_part, name_part, key in E1, E2. cbn [fst snd] in E1, E2. clear E.
      cbn [pred_loop].
      replace (group m (match e with EBambi => 1 | _ => 2 end)) with (group m 2) by (destruct e; [reflexivity|reflexivity|congruence]).
      replace (group m (match e with EBambi => 2 | _ => 3 end)) with (group m 3) by (destruct e; [reflexivity|reflexivity|congruence]).
      rewrite E1, E2, split_commas by assumption. unfold parse_arguments. rewrite (parse_items params e items uo (read_as D) N F Ui 0).
      change (Z.of_nat 0 - offset e)%Z with (- offset e)%Z.
      rewrite map_app, put_uses_app, numbered_reread.
      destruct (numbered (read_as D) (- offset e) uo) as [|u0 us0] eqn:Q.
      * cbn [map put_uses]. apply IH; [exact E4|]. intros u I. apply In0, in_or_app. right. exact I.
      * cbn [map]. rewrite class_of_name. cbn [bind].
        assert (Mi : make_initial (read_as D) = Ok (read_as D)).
        { assert (Hn : numbered D (- offset e) uo <> []) by (intros Z0; rewrite <- numbered_reread, Z0 in Q; discriminate).
          destruct (numbered D (- offset e) uo) as [|u1 us1] eqn:Q1; [congruence|].
          specialize (In0 u1 (or_introl eq_refl)). rewrite (numbered_class D (- offset e) uo u1) in In0 by (rewrite Q1; left; reflexivity).
          destruct D as [[]| | | | | | |]; first [discriminate | reflexivity]. }
        rewrite Mi. cbn [bind]. change (triple u0 :: map triple us0) with (map triple (u0 :: us0)).
        rewrite put_all_uses by (intros u I; rewrite <- Q in I; apply (numbered_class _ _ _ _ I)).
        apply IH; [exact E4|]. intros u I. apply In0, in_or_app. right. exact I.
Qed.
