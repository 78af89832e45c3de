(** Lemmas about the matcher of ReModel: greedy and lazy runs, literals, alternatives of literals, and failure. *)
From Coq Require Import List Bool Ascii Arith Lia.
From Verif Require Import Base TextModel TextProps ReModel.
Import ListNotations.

(** The state after reading [u], with [t] left. *)
Definition past (s : state) (u t : text) : state :=
  {| prev := match rev u with c :: _ => Some c | [] => prev s end; rest := t; caps := caps s |}.
Lemma past_nil s : past s [] (rest s) = s.
Proof. destruct s; reflexivity. Qed.
Lemma past_cons s c u t : past (step s c (u ++ t)) u t = past s (c :: u) t.
Proof. unfold past, step; cbn. destruct (rev u) as [|d w] eqn:E; cbn; [reflexivity|]. reflexivity. Qed.
Lemma past_past s u v t : past (past s u (v ++ t)) v t = past s (u ++ v) t.
Proof. unfold past; cbn. rewrite rev_app_distr. destruct (rev v); reflexivity. Qed.
Lemma past_caps s u t : caps (past s u t) = caps s. Proof. reflexivity. Qed.
Lemma past_rest s u t : rest (past s u t) = t. Proof. reflexivity. Qed.
Lemma firstn_past (u t : text) : firstn (List.length (u ++ t) - List.length t) (u ++ t) = u.
Proof. rewrite app_length. replace (List.length u + List.length t - List.length t) with (List.length u) by lia.
  rewrite firstn_app, Nat.sub_diag, firstn_all. cbn. apply app_nil_r. Qed.

(* ---------------------------------------------------------------- runs of characters *)
Definition stops (p : ascii -> bool) (t : text) : Prop := match t with [] => True | c :: _ => p c = false end.
Definition gloop {X} (p : ascii -> bool) := most (X := X) (fun s k => run (Chr p) s k).
Definition lloop {X} (p : ascii -> bool) := least (X := X) (fun s k => run (Chr p) s k).
Lemma many_gloop {X} p s (k : state -> option X) : run (Many true (Chr p)) s k = gloop p k (List.length (rest s)) s.
Proof. reflexivity. Qed.
Lemma many_lloop {X} p s (k : state -> option X) : run (Many false (Chr p)) s k = lloop p k (List.length (rest s)) s.
Proof. reflexivity. Qed.
Lemma gloop_O {X} p (k : state -> option X) s : gloop p k 0 s = k s. Proof. reflexivity. Qed.
Lemma gloop_S {X} p (k : state -> option X) m s :
  gloop p k (S m) s = match rest s with
                      | c :: t => if p c then match gloop p k m (step s c t) with Some x => Some x | None => k s end else k s
                      | [] => k s
                      end.
Proof. unfold gloop. cbn [most run]. destruct (rest s) as [|c t]; [reflexivity|]. destruct (p c); reflexivity. Qed.
Lemma lloop_O {X} p (k : state -> option X) s : lloop p k 0 s = k s. Proof. unfold lloop. cbn [least]. destruct (k s); reflexivity. Qed.
Lemma lloop_S {X} p (k : state -> option X) m s :
  lloop p k (S m) s = match k s with
                      | Some x => Some x
                      | None => match rest s with c :: t => if p c then lloop p k m (step s c t) else None | [] => None end
                      end.
Proof. unfold lloop. cbn [least run]. destruct (k s); [reflexivity|]. destruct (rest s) as [|c t]; [reflexivity|]. destruct (p c); reflexivity. Qed.
(** A greedy run followed by a success takes all it can. *)
Lemma greedy_some {X} p (k : state -> option X) u t s x :
  rest s = u ++ t -> forallb p u = true -> stops p t -> k (past s u t) = Some x -> run (Many true (Chr p)) s k = Some x.
Proof.
  intros E. rewrite many_gloop. assert (L : List.length u <= List.length (rest s)) by (rewrite E, app_length; lia).
  remember (List.length (rest s)) as n eqn:N. clear N. revert s u E L.
  induction n as [|n IH]; intros s u E L A St K.
  - destruct u; [|cbn in L; lia]. cbn. cbn in E. rewrite <- E in K. rewrite past_nil in K. exact K.
  - destruct u as [|c u].
    + cbn in E. rewrite <- E in K. rewrite past_nil in K. rewrite gloop_S, E. destruct t as [|d t]; [exact K|].
      cbn in St. rewrite St. exact K.
    + cbn in A. apply andb_true_iff in A as [A1 A2]. rewrite gloop_S, E. cbn [app]. rewrite A1.
      rewrite (IH (step s c (u ++ t)) u); [reflexivity|reflexivity|cbn in L; lia|exact A2|exact St|]. rewrite past_cons. exact K.
Qed.
(** A run fails when what follows fails at each of its possible ends. *)
Lemma run_none {X} g p (k : state -> option X) s :
  (forall u t, rest s = u ++ t -> forallb p u = true -> k (past s u t) = None) -> run (Many g (Chr p)) s k = None.
Proof.
  intros H. destruct g; [rewrite many_gloop|rewrite many_lloop]; generalize (List.length (rest s)); intros n; revert s H;
    induction n as [|n IH]; intros s H.
  - rewrite gloop_O, <- (past_nil s). apply (H [] (rest s)); reflexivity.
  - assert (K0 : k s = None) by (rewrite <- (past_nil s); apply (H [] (rest s)); reflexivity).
    rewrite gloop_S. destruct (rest s) as [|c t] eqn:E; [exact K0|]. destruct (p c) eqn:P; [|exact K0].
    rewrite IH; [exact K0|]. intros u t2 E2 A. cbn in E2. subst t. rewrite past_cons. apply H; [reflexivity|]. cbn. rewrite P. exact A.
  - rewrite lloop_O, <- (past_nil s). apply (H [] (rest s)); reflexivity.
  - assert (K0 : k s = None) by (rewrite <- (past_nil s); apply (H [] (rest s)); reflexivity). rewrite lloop_S, K0.
    destruct (rest s) as [|c t] eqn:E; [reflexivity|]. destruct (p c) eqn:P; [|reflexivity].
    apply IH. intros u t2 E2 A. cbn in E2. subst t. rewrite past_cons. apply H; [reflexivity|]. cbn. rewrite P. exact A.
Qed.
(** A lazy run stops at the first place where what follows succeeds. *)
Lemma lazy_some {X} p (k : state -> option X) u t s x :
  rest s = u ++ t -> forallb p u = true ->
  (forall a b, u = a ++ b -> b <> [] -> k (past s a (b ++ t)) = None) -> k (past s u t) = Some x ->
  run (Many false (Chr p)) s k = Some x.
Proof.
  intros E. rewrite many_lloop. assert (L : List.length u <= List.length (rest s)) by (rewrite E, app_length; lia).
  remember (List.length (rest s)) as n eqn:N. clear N. revert s u E L.
  induction n as [|n IH]; intros s u E L A F K.
  - destruct u; [|cbn in L; lia]. cbn in E. rewrite <- E, past_nil in K. rewrite lloop_O. exact K.
  - destruct u as [|c u].
    + cbn in E. rewrite <- E, past_nil in K. rewrite lloop_S, K. reflexivity.
    + assert (K0 : k s = None).
      { rewrite <- (past_nil s), E. apply (F [] (c :: u)); [reflexivity|discriminate]. }
      rewrite lloop_S, K0, E. cbn [app]. cbn in A. apply andb_true_iff in A as [A1 A2]. rewrite A1.
      apply (IH (step s c (u ++ t)) u); [reflexivity|cbn in L; lia|exact A2| |rewrite past_cons; exact K].
      intros a b -> B. replace (past (step s c ((a ++ b) ++ t)) a (b ++ t)) with (past s (c :: a) (b ++ t)).
      * apply F; [reflexivity|exact B].
      * rewrite <- app_assoc, past_cons. reflexivity.
Qed.

(* ---------------------------------------------------------------- literals and their alternatives *)
Lemma lit_some {X} n t s (k : state -> option X) : rest s = n ++ t -> run (lit n) s k = k (past s n t).
Proof.
  revert s. induction n as [|c n IH]; intros s E; cbn [lit run].
  - cbn in E. rewrite <- E, past_nil. reflexivity.
  - rewrite E. cbn. rewrite Ascii.eqb_refl. rewrite IH by reflexivity. rewrite past_cons. reflexivity.
Qed.
Lemma lit_none {X} n s (k : state -> option X) : (forall t, rest s <> n ++ t) -> run (lit n) s k = None.
Proof.
  revert s. induction n as [|c n IH]; intros s E; cbn [lit run].
  - exfalso. apply (E (rest s)). reflexivity.
  - destruct (rest s) as [|d t] eqn:R; [reflexivity|]. destruct (Ascii.eqb c d) eqn:Q; [|reflexivity].
    apply Ascii.eqb_eq in Q as <-. apply IH. intros t2 E2. cbn in E2. subst t. apply (E t2). reflexivity.
Qed.
Lemma alt_cons {X} a b l s (k : state -> option X) :
  run (alt (a :: b :: l)) s k = match run a s k with Some x => Some x | None => run (alt (b :: l)) s k end.
Proof. reflexivity. Qed.
Lemma alt_none {X} l s (k : state -> option X) : l <> [] -> Forall (fun r => run r s k = None) l -> run (alt l) s k = None.
Proof.
  induction l as [|a l IH]; intros N F; [congruence|]. inversion F as [|? ? F1 F2]; subst. destruct l as [|b l]; [exact F1|].
  rewrite alt_cons, F1. apply IH; [discriminate|exact F2].
Qed.
Lemma alt_some {X} l1 a l2 s (k : state -> option X) x :
  Forall (fun r => run r s k = None) l1 -> run a s k = Some x -> run (alt (l1 ++ a :: l2)) s k = Some x.
Proof.
  induction l1 as [|b l1 IH]; intros F A.
  - cbn [app]. destruct l2; [exact A|]. rewrite alt_cons, A. reflexivity.
  - inversion F as [|? ? F1 F2]; subst. cbn [app]. destruct (l1 ++ a :: l2) as [|c l] eqn:E; [destruct l1; discriminate|].
    rewrite alt_cons, F1. apply IH; assumption.
Qed.
Lemma lits_none {X} (names : list text) s (k : state -> option X) :
  names <> [] -> (forall n t, In n names -> rest s <> n ++ t) -> run (alt (map lit names)) s k = None.
Proof.
  intros N H. apply alt_none; [destruct names; [congruence|discriminate]|]. apply Forall_forall. intros r I.
  apply in_map_iff in I as (n & <- & I). apply lit_none. intros t. apply H, I.
Qed.
Lemma lits_some {X} l1 n l2 t s (k : state -> option X) x :
  (forall m u, In m l1 -> rest s <> m ++ u) -> rest s = n ++ t -> k (past s n t) = Some x ->
  run (alt (map lit (l1 ++ n :: l2))) s k = Some x.
Proof.
  intros H E K. rewrite map_app. cbn [map]. apply alt_some.
  - apply Forall_forall. intros r I. apply in_map_iff in I as (m & <- & I). apply lit_none. intros u. apply H, I.
  - rewrite (lit_some n t) by exact E. exact K.
Qed.
Lemma chr_none {X} p s (k : state -> option X) : stops p (rest s) -> run (Chr p) s k = None.
Proof. intros H. cbn. destruct (rest s) as [|c t]; [reflexivity|]. cbn in H. rewrite H. reflexivity. Qed.
Lemma chr_some {X} p c t s (k : state -> option X) : rest s = c :: t -> p c = true -> run (Chr p) s k = k (past s [c] t).
Proof. intros E P. cbn. rewrite E, P. reflexivity. Qed.

(* ---------------------------------------------------------------- searching *)
Lemma search_skip r u p t :
  (forall a b q, u = a ++ b -> b <> [] -> here r {| prev := q; rest := b ++ t; caps := [] |} = None) ->
  exists q, search_from r p (u ++ t) =
    match search_from r q t with Some m => Some {| skipped := u ++ skipped m; whole := whole m; groups := groups m; after := after m |} | None => None end.
Proof.
  revert p. induction u as [|c u IH]; intros p H.
  - exists p. cbn. destruct (search_from r p t) as [[]|]; reflexivity.
  - destruct (IH (Some c)) as (q & E).
    + intros a b q -> B. apply (H (c :: a) b q); [reflexivity|exact B].
    + exists q. cbn [app search_from]. assert (H0 : here r {| prev := p; rest := c :: u ++ t; caps := [] |} = None) by (apply (H [] (c :: u) p); [reflexivity|discriminate]).
      rewrite H0, E. destruct (search_from r q t) as [m|]; reflexivity.
Qed.
Lemma search_here r p t m : here r {| prev := p; rest := t; caps := [] |} = Some m -> search_from r p t = Some m.
Proof. intros H. destruct t; cbn [search_from]; rewrite H; reflexivity. Qed.
Lemma search_none r t p : (forall a b q, t = a ++ b -> here r {| prev := q; rest := b; caps := [] |} = None) -> search_from r p t = None.
Proof.
  revert p. induction t as [|c t IH]; intros p H; cbn [search_from].
  - rewrite (H [] [] p); reflexivity.
  - rewrite (H [] (c :: t) p) by reflexivity. rewrite IH; [reflexivity|]. intros a b q ->. apply (H (c :: a) b q). reflexivity.
Qed.

(* ---------------------------------------------------------------- what a match has read *)
(** The texts that a pattern can read, boundaries and line ends apart. *)
Inductive lang : re -> text -> Prop :=
| l_nothing : lang Nothing []
| l_chr p c : p c = true -> lang (Chr p) [c]
| l_cat a b u v : lang a u -> lang b v -> lang (Cat a b) (u ++ v)
| l_left a b u : lang a u -> lang (Or a b) u
| l_right a b u : lang b u -> lang (Or a b) u
| l_none g a : lang (Many g a) []
| l_more g a u v : lang a u -> lang (Many g a) v -> lang (Many g a) (u ++ v)
| l_group n a u : lang a u -> lang (Group n a) u
| l_boundary : lang Boundary []
| l_eol : lang Eol [].
(** [a] is the body of group [n] somewhere in a pattern. *)
Inductive inside (n : nat) (a : re) : re -> Prop :=
| i_here : inside n a (Group n a)
| i_cat1 b c : inside n a b -> inside n a (Cat b c)
| i_cat2 b c : inside n a c -> inside n a (Cat b c)
| i_or1 b c : inside n a b -> inside n a (Or b c)
| i_or2 b c : inside n a c -> inside n a (Or b c)
| i_many g b : inside n a b -> inside n a (Many g b)
| i_group m b : inside n a b -> inside n a (Group m b).
Definition moved (r : re) (s s1 : state) : Prop :=
  exists u, rest s = u ++ rest s1 /\ lang r u /\ forall n w, In (n, w) (caps s1) -> In (n, w) (caps s) \/ exists a, inside n a r /\ lang a w.
Lemma moved_refl r s : lang r [] -> moved r s s.
Proof. intros L. exists []. split; [reflexivity|]. split; [exact L|]. auto. Qed.
Theorem run_moved {X} r : forall s (k : state -> option X) x, run r s k = Some x -> exists s1, moved r s s1 /\ k s1 = Some x.
Proof.
  induction r as [|p|a IHa b IHb|a IHa b IHb|g a IHa|n a IHa| |]; intros s k x H; cbn [run] in H.
  - exists s. split; [apply moved_refl; constructor|exact H].
  - destruct (rest s) as [|c t] eqn:E; [discriminate|]. destruct (p c) eqn:P; [|discriminate]. exists (step s c t). split; [|exact H].
    exists [c]. cbn. repeat split; [rewrite E; reflexivity|constructor; exact P|auto].
  - destruct (IHa _ _ _ H) as (s1 & (u & E1 & L1 & C1) & H1). destruct (IHb _ _ _ H1) as (s2 & (v & E2 & L2 & C2) & H2). exists s2. split; [|exact H2].
    exists (u ++ v). split; [rewrite E1, E2, app_assoc; reflexivity|]. split; [constructor; assumption|].
    intros n w I. destruct (C2 n w I) as [J|(c & J & L)]; [destruct (C1 n w J) as [K|(c & K & L)]|]; [left; exact K|right; exists c; split; [apply i_cat1|]; assumption|right; exists c; split; [apply i_cat2|]; assumption].
  - destruct (run a s k) as [y|] eqn:E.
    + injection H as ->. destruct (IHa _ _ _ E) as (s1 & (u & E1 & L1 & C1) & H1). exists s1. split; [|exact H1]. exists u. split; [exact E1|]. split; [constructor; exact L1|].
      intros n w I. destruct (C1 n w I) as [J|(c & J & L)]; [left; exact J|right; exists c; split; [apply i_or1|]; assumption].
    + destruct (IHb _ _ _ H) as (s1 & (u & E1 & L1 & C1) & H1). exists s1. split; [|exact H1]. exists u. split; [exact E1|]. split; [apply l_right; exact L1|].
      intros n w I. destruct (C1 n w I) as [J|(c & J & L)]; [left; exact J|right; exists c; split; [apply i_or2|]; assumption].
  - assert (Step : forall s0 s1 s2, moved a s0 s1 -> moved (Many g a) s1 s2 -> moved (Many g a) s0 s2).
    { intros s0 s1 s2 (u & E1 & L1 & C1) (v & E2 & L2 & C2). exists (u ++ v). split; [rewrite E1, E2, app_assoc; reflexivity|]. split; [constructor; assumption|].
      intros n w I. destruct (C2 n w I) as [J|Q]; [destruct (C1 n w J) as [K|(c & K & L)]|right; exact Q]; [left; exact K|right; exists c; split; [apply i_many|]; assumption]. }
    destruct g; revert H; generalize (List.length (rest s)); intros n; revert s; induction n as [|n IH]; intros s H.
    + cbn in H. exists s. split; [apply moved_refl; constructor|exact H].
    + cbn [most] in H. destruct (run a s _) as [y|] eqn:E.
      * injection H as ->. destruct (IHa _ _ _ E) as (s1 & M1 & H1). destruct (IH s1 H1) as (s2 & M2 & H2). exists s2. split; [exact (Step _ _ _ M1 M2)|exact H2].
      * exists s. split; [apply moved_refl; constructor|exact H].
    + cbn [least] in H. destruct (k s) as [y|] eqn:E; [|discriminate]. injection H as ->. exists s. split; [apply moved_refl; constructor|exact E].
    + cbn [least] in H. destruct (k s) as [y|] eqn:E.
      * injection H as ->. exists s. split; [apply moved_refl; constructor|exact E].
      * destruct (IHa _ _ _ H) as (s1 & M1 & H1). destruct (IH s1 H1) as (s2 & M2 & H2). exists s2. split; [exact (Step _ _ _ M1 M2)|exact H2].
  - destruct (IHa _ _ _ H) as (s1 & (u & E1 & L1 & C1) & H1). exists (capture s s1 n). split; [|exact H1]. exists u. cbn [rest capture caps].
    split; [exact E1|]. split; [constructor; exact L1|]. intros m w [I|I].
    + right. exists a. injection I as <- <-. split; [apply i_here|]. rewrite E1, firstn_past. exact L1.
    + destruct (C1 m w I) as [J|(c & J & L)]; [left; exact J|right; exists c; split; [apply i_group|]; assumption].
  - destruct (xorb _ _); [|discriminate]. exists s. split; [apply moved_refl; constructor|exact H].
  - exists s. split; [apply moved_refl; constructor|]. destruct (rest s); [exact H|]. destruct (Ascii.eqb _ _); [exact H|discriminate].
Qed.
Lemma here_lang r s m : here r s = Some m -> lang r (whole m) /\ forall n w, In (n, w) (groups m) -> exists a, inside n a r /\ lang a w.
Proof.
  intros H. unfold here in H. apply run_moved in H as (s1 & (u & E & L & C) & H). injection H as <-. cbn [whole groups rest] in *. rewrite E, firstn_past. split; [exact L|].
  intros n w I. destruct (C n w I) as [[]|J]; exact J.
Qed.
Lemma search_lang r t : forall p m, search_from r p t = Some m -> lang r (whole m) /\ forall n w, In (n, w) (groups m) -> exists a, inside n a r /\ lang a w.
Proof.
  induction t as [|c t IH]; intros p m H; cbn [search_from] in H.
  - destruct (here r _) as [m0|] eqn:E; [|discriminate]. injection H as ->. exact (here_lang _ _ _ E).
  - destruct (here r _) as [m0|] eqn:E; [injection H as ->; exact (here_lang _ _ _ E)|].
    destruct (search_from r (Some c) t) as [m0|] eqn:E2; [|discriminate]. injection H as <-. exact (IH _ _ E2).
Qed.
Lemma finditer_lang r n : forall p t m, In m (finditer_from n r p t) -> lang r (whole m) /\ forall n w, In (n, w) (groups m) -> exists a, inside n a r /\ lang a w.
Proof.
  induction n as [|n IH]; intros p t m I; cbn [finditer_from] in I; [contradiction|]. destruct (search_from r p t) as [m0|] eqn:E; [|contradiction].
  destruct I as [->|I]; [exact (search_lang _ _ _ _ E)|exact (IH _ _ _ I)].
Qed.
Lemma lit_lang n u : lang (lit n) u -> u = n.
Proof.
  revert u. induction n as [|c n IH]; intros u H; cbn [lit] in H; inversion H; subst; [reflexivity|].
  match goal with H : lang (Chr _) _ |- _ => inversion H; subst end. match goal with H : Ascii.eqb _ _ = true |- _ => apply Ascii.eqb_eq in H; subst end.
  cbn. f_equal. apply IH. assumption.
Qed.
Lemma many_chr_lang g p u : lang (Many g (Chr p)) u -> forallb p u = true.
Proof.
  intros H. remember (Many g (Chr p)) as r eqn:R. induction H; try discriminate; [reflexivity|]. injection R as -> ->.
  inversion H; subst. cbn. rewrite H2. apply IHlang2. reflexivity.
Qed.
Lemma some_lang p u : lang (some p) u -> forallb p u = true /\ u <> [].
Proof.
  unfold some. intros H. inversion H as [| |a b u1 v1 H1 H2| | | | | | |]; subst. inversion H1; subst. cbn. rewrite (many_chr_lang _ _ _ H2), andb_true_r.
  split; [assumption|discriminate].
Qed.
