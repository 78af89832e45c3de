(** C62: what ppa and predictive_explorer read in the source of a model function, and which draws belong together. *)
From Coq Require Import List Bool Ascii String Arith Lia ZArith Reals Lra.
From Verif Require Import Base XR FamModel BoundModel TextModel TextProps PplModel CatModel ReModel ReProofs SourceModel SourceSpec SourceProofs.
Import ListNotations.
Open Scope list_scope.

Definition good_lines (ls : list (line * text)) : Prop := Forall (fun lc => good_line (fst lc) /\ good_comment (snd lc)) ls.
(** The function returns its variables in one statement, the first place where the word return is followed by a space. *)
Definition good_return (ls : list (line * text)) (indent : text) (vs : list text) : Prop :=
  plain indent /\ vs <> [] /\ Forall (fun v => forallb is_word v = true /\ v <> []) vs /\
  silent (indent ++ txt "return " ++ commas vs) /\ (forall a b, show ls ++ indent <> a ++ txt "return " ++ b).
(** The classes that the pattern reads under their own name and that can be made without arguments. *)
Definition readable (D : cls) : Prop :=
  D <> Fam BetaScaled /\ D <> Fam BetaBinomial /\ D <> CMixture /\ D <> CTruncated /\ D <> CCensored /\ D <> CHurdle.

Lemma show_app a b : show (a ++ b) = show a ++ show b.
Proof. induction a as [|[l c] a IH]; [reflexivity|]. cbn [app show]. rewrite IH, <- !app_assoc. reflexivity. Qed.
Lemma assigned_app a b : assigned (a ++ b) = assigned a ++ assigned b.
Proof. induction a as [|[[t|i v x D q z] c] a IH]; cbn; [reflexivity|exact IH|f_equal; exact IH]. Qed.
Lemma commas_plain vs : Forall (fun v => forallb is_word v = true /\ v <> []) vs -> plain (commas vs).
Proof.
  intros F. destruct vs as [|v vs]; [split; intros []|]. rewrite commas_more. inversion F as [|? ? [W _] F2]; subst.
  assert (H : forall vs, Forall (fun v => forallb is_word v = true /\ v <> []) vs -> plain (more_vars vs)).
  { clear. induction vs as [|v vs IH]; intros F; [split; intros []|]. inversion F as [|? ? [W _] F2]; subst. destruct (IH F2) as [A B]. cbn [more_vars].
    split; intros I; repeat (apply in_app_or in I as [I|I]); try contradiction; try (cbv in I; decompose [or] I; try discriminate; contradiction);
      refine (forallb_not_in is_word _ _ W _ I); reflexivity. }
  destruct (H vs F2) as [A B]. split; intros I; apply in_app_or in I as [I|I]; try contradiction; refine (forallb_not_in is_word _ _ W _ I); reflexivity.
Qed.
Lemma program_matches ls indent vs : good_lines ls -> good_return ls indent vs ->
  exists ms, match_preliz_dist (program ls indent vs) EPreliz = ms /\
    map key ms = flat_map (fun lc => line_key (fst lc)) (ls ++ [(Code (indent ++ txt "return " ++ commas vs), [])]) /\
    good_lines (ls ++ [(Code (indent ++ txt "return " ++ commas vs), [])]).
Proof.
  intros G (Pi & N & F & Sl & _). eexists. split; [reflexivity|].
  assert (Gl : good_lines (ls ++ [(Code (indent ++ txt "return " ++ commas vs), [])])).
  { apply Forall_app. split; [exact G|]. constructor; [|constructor]. cbn [fst snd good_line]. split; [|left; reflexivity]. split; [|exact Sl].
    destruct (commas_plain vs F) as [A B]. destruct Pi as [C D].
    split; intros I; repeat (apply in_app_or in I as [I|I]); try contradiction; cbv in I; decompose [or] I; try discriminate; contradiction. }
  split; [|exact Gl].
  replace (program ls indent vs) with (show (ls ++ [(Code (indent ++ txt "return " ++ commas vs), [])]) ++ []).
  - apply matches_show; [discriminate|exact Gl|split; intros []|]. intros a n b (D & ->) E. pose proof (name_nonempty D) as Nn.
    symmetry in E. apply app_eq_nil in E as [_ E]. apply app_eq_nil in E as [E _]. contradiction.
  - rewrite app_nil_r, show_app. unfold program. cbn [show show_line app]. rewrite <- !app_assoc. reflexivity.
Qed.
Lemma program_return ls indent vs : good_return ls indent vs -> match_return_variables (program ls indent vs) = Ok vs.
Proof.
  intros (_ & N & F & _ & H). unfold program. rewrite app_assoc. apply return_variables; [exact N|exact F|exact H].
Qed.
Lemma program_read ls indent vs : good_lines ls -> good_return ls indent vs ->
  from_preliz (program ls indent vs) =
    if existsb (fun p => is_modifier (snd p) && negb (text_eqb (fst p) (last vs []))) (assigned ls) then Err TypeError
    else Ok (vs, put_dists (read_assigned ls) (last vs []) []).
Proof.
  intros G R. unfold from_preliz. rewrite program_return by exact R. cbn [bind].
  destruct (program_matches ls indent vs G R) as (ms & -> & K & G2). unfold dict_model. destruct R as (_ & N & _).
  destruct (exists_last N) as (init & obs & ->). rewrite rev_app_distr, last_last. cbn [rev app].
  rewrite (dict_loop_show ms (ls ++ [(Code (indent ++ txt "return " ++ commas (init ++ [obs])), [])])).
  - unfold read_assigned. rewrite assigned_app. cbn [assigned]. rewrite app_nil_r. destruct (existsb _ (assigned ls)); reflexivity.
  - eapply Forall_impl; [|exact G2]. intros lc [H _]. exact H.
  - exact K.
Qed.
Lemma put_dists_filter ps obs : forall d, NoDup (map fst ps) -> (forall v, In v (map fst ps) -> ~ In v (map fst d)) ->
  put_dists ps obs d = d ++ filter (fun p => negb (text_eqb (fst p) obs)) ps.
Proof.
  induction ps as [|[v D] ps IH]; intros d Nd H; cbn [put_dists filter fst]; [rewrite app_nil_r; reflexivity|]. inversion Nd as [|? ? Nv Nd2]; subst.
  destruct (text_eqb v obs).
  - cbn [negb]. apply IH; [exact Nd2|]. intros w I. apply H. right. exact I.
  - cbn [negb]. rewrite put_new by (apply H; left; reflexivity). rewrite IH; [rewrite <- app_assoc; reflexivity|exact Nd2|].
    intros w I J. rewrite map_app in J. apply in_app_or in J as [J|[J|[]]]; [apply (H w (or_intror I) J)|]. cbn in J. subst w. contradiction.
Qed.

(** For every function made of lines that assign one distribution, other lines and comments, whatever the arguments, ppa finds the returned names and, for each
    of the others, its family. *)
Theorem C62_priors_read ls indent vs :
  good_lines ls -> good_return ls indent vs -> NoDup (map fst (assigned ls)) -> (forall v D, In (v, D) (assigned ls) -> readable D) ->
  from_preliz (program ls indent vs) = Ok (vs, filter (fun p => negb (text_eqb (fst p) (last vs []))) (assigned ls)).
Proof.
  intros G R Nd Rd. rewrite program_read by assumption.
  replace (existsb _ (assigned ls)) with false.
  - f_equal. f_equal. replace (read_assigned ls) with (assigned ls).
    + rewrite put_dists_filter; [reflexivity|exact Nd|intros v _ []].
    + unfold read_assigned. rewrite <- (map_id (assigned ls)) at 1. apply map_ext_in. intros [v D] I. cbn. f_equal.
      destruct (Rd v D I) as (H1 & H2 & _). destruct D as [[]| | | | | | |]; try reflexivity; congruence.
  - symmetry. destruct (existsb _ (assigned ls)) eqn:E; [|reflexivity]. apply existsb_exists in E as ([v D] & I & E). apply andb_true_iff in E as [E _].
    destruct (Rd v D I) as (_ & _ & H1 & H2 & H3 & H4). destruct D; discriminate || congruence.
Qed.
(** A prior that is a BetaScaled or a BetaBinomial is read as a Beta: the pattern tries the names in the order of __all__ and Beta matches first. *)
Theorem C62_beta_refuted ls indent vs v D :
  good_lines ls -> good_return ls indent vs -> NoDup (map fst (assigned ls)) -> (forall w E, In (w, E) (assigned ls) -> is_modifier E = false) ->
  In (v, D) (assigned ls) -> v <> last vs [] -> D = Fam BetaScaled \/ D = Fam BetaBinomial ->
  exists model, from_preliz (program ls indent vs) = Ok (vs, model) /\ In (v, Fam Beta) model /\ ~ In (v, D) model.
Proof.
  intros G R Nd Md I Nv HD. rewrite program_read by assumption. replace (existsb _ (assigned ls)) with false.
  - assert (Er : map fst (read_assigned ls) = map fst (assigned ls)) by (unfold read_assigned; rewrite map_map; apply map_ext; reflexivity).
    eexists. split; [reflexivity|]. rewrite put_dists_filter; [|rewrite Er; exact Nd|intros w _ []]. cbn [app]. split.
    + apply filter_In. split; [|cbn [fst]; rewrite text_eqb_neq by exact Nv; reflexivity]. unfold read_assigned. apply in_map_iff. exists (v, D). split; [|exact I].
      destruct HD as [->| ->]; reflexivity.
    + intros J. apply filter_In in J as [J _]. unfold read_assigned in J. apply in_map_iff in J as ([w E] & Q & _). cbn in Q. injection Q as _ Q. destruct HD as [->| ->], E as [[]| | | | | | |]; discriminate.
  - symmetry. destruct (existsb _ (assigned ls)) eqn:E; [|reflexivity]. apply existsb_exists in E as ([w F] & J & E). apply andb_true_iff in E as [E _].
    cbn in E. rewrite (Md w F J) in E. discriminate.
Qed.
(** A prior that is truncated, censored, hurdle or a mixture cannot be read: the class is called without its arguments. *)
Theorem C62_modifier_refuted ls indent vs v D :
  good_lines ls -> good_return ls indent vs -> In (v, D) (assigned ls) -> v <> last vs [] -> In D [CMixture; CTruncated; CCensored; CHurdle] ->
  from_preliz (program ls indent vs) = Err TypeError.
Proof.
  intros G R I Nv HD. rewrite program_read by assumption. replace (existsb _ (assigned ls)) with true; [reflexivity|]. symmetry. apply existsb_exists.
  exists (v, D). split; [exact I|]. cbn [fst snd]. rewrite text_eqb_neq by exact Nv. cbn in HD. decompose [or] HD; subst; try reflexivity; contradiction.
Qed.
(** The comments play no part in the distributions that are found: they are found in the text without its comments. *)
Theorem C62_comments source e :
  match_preliz_dist source e = finditer (match e with EBambi => prior_call | _ => dist_call end) (uncomment false source).
Proof. unfold match_preliz_dist. rewrite erase_comment. reflexivity. Qed.

(* ---------------------------------------------------------------- deciding the conditions on concrete texts *)
Fixpoint occurs (n t : text) : bool := prefixb n t || match t with [] => false | _ :: r => occurs n r end.
Lemma occurs_spec n a b : occurs n (a ++ n ++ b) = true.
Proof. induction a as [|c a IH]; cbn [app]; [destruct n as [|c n]; [destruct b; reflexivity|]; cbn [app occurs]; rewrite (prefixb_app (c :: n) b : prefixb (c :: n) (c :: n ++ b) = true); reflexivity|].
  cbn [occurs]. rewrite IH. apply orb_true_r. Qed.
Definition silentb (t : text) : bool := forallb (fun n => negb (occurs n t)) all_names.
Lemma silentb_spec t : silentb t = true -> silent t.
Proof. intros H a n b (D & ->) ->. unfold silentb in H. rewrite forallb_forall in H. specialize (H _ (all_names_in D)). rewrite occurs_spec in H. discriminate. Qed.
Fixpoint leadsb (before : text) (D : cls) : bool :=
  match before with [] => true | _ :: r => forallb (fun n => negb (prefixb n (before ++ name_of D))) all_names && leadsb r D end.
Lemma leadsb_spec before D : leadsb before D = true -> leads before D.
Proof.
  intros H a. revert before H. induction a as [|c a IH]; intros before H b n x (E & ->) -> Nb Q.
  - cbn [app] in H. destruct b as [|d b]; [congruence|]. cbn [leadsb] in H. apply andb_true_iff in H as [H _]. rewrite forallb_forall in H.
    specialize (H _ (all_names_in E)). cbn [app] in Q. rewrite <- app_comm_cons in H. rewrite Q, prefixb_app in H. discriminate.
  - cbn [app leadsb] in H. apply andb_true_iff in H as [_ H]. exact (IH (a ++ b) H b _ x (ex_intro _ E eq_refl) eq_refl Nb Q).
Qed.
Lemma not_occurs n t : occurs n t = false -> forall a b, t <> a ++ n ++ b.
Proof. intros H a b ->. rewrite occurs_spec in H. discriminate. Qed.
Lemma not_in_dec (c : ascii) t : existsb (Ascii.eqb c) t = false -> ~ In c t.
Proof. intros H I. assert (E : existsb (Ascii.eqb c) t = true) by (apply existsb_exists; exists c; split; [exact I|apply Ascii.eqb_refl]). congruence. Qed.
Ltac texts := first [apply not_in_dec; vm_compute; reflexivity | vm_compute; reflexivity | discriminate].
Ltac plain_text := split; texts.

(** mu = pz.Normal(0, 10).rvs(); sigma = pz.HalfNormal(np.exp(2)).rvs() # scale; y = pz.Normal(mu, sigma).rvs(100); return mu, sigma, y *)
Definition example_lines : list (line * text) :=
  [(Code (txt "def a_model():"), []);
   (Assign (txt "    ") (txt "mu") (txt "pz.") (Fam Normal) (txt "0, 10") (txt ".rvs()"), []);
   (Assign (txt "    ") (txt "sigma") (txt "pz.") (Fam HalfNormal) (txt "np.exp(2)") (txt ".rvs()  "), txt "# not a pz.Gamma(2, 1)");
   (Assign (txt "    ") (txt "y") (txt "pz.") (Fam Normal) (txt "mu, sigma") (txt ".rvs(100)"), [])].
Definition example_vars : list text := [txt "mu"; txt "sigma"; txt "y"].
Lemma shallow_call p q : no_parens p -> no_parens q -> shallow (p ++ c_open :: q ++ [c_close]).
Proof. intros H1 H2. exact (shallow_pair p q [] H1 H2 (shallow_flat [] (conj (fun x => x) (fun x => x)))). Qed.
Ltac flat_args := apply shallow_flat; split; texts.
Ltac line_ok := split; [cbn [good_line fst]; first [split; [plain_text|apply silentb_spec; vm_compute; reflexivity]
  | split; [reflexivity|]; split; [plain_text|]; split; [reflexivity|]; split; [discriminate|]; split; [plain_text|]; split; [apply leadsb_spec; vm_compute; reflexivity|];
    split; [first [flat_args | apply (shallow_call (txt "np.exp") (txt "2")); split; texts]|]; split; [texts|]; split; [plain_text|apply silentb_spec; vm_compute; reflexivity]]
  | first [left; reflexivity | right; eexists; split; [reflexivity|texts]]].
Example example_read :
  good_lines example_lines /\ good_return example_lines (txt "    ") example_vars /\
  from_preliz (program example_lines (txt "    ") example_vars) = Ok (example_vars, [(txt "mu", Fam Normal); (txt "sigma", Fam HalfNormal)]).
Proof.
  assert (G : good_lines example_lines) by (repeat (constructor; [line_ok|]); constructor).
  assert (R : good_return example_lines (txt "    ") example_vars).
  { split; [plain_text|]. split; [discriminate|]. split; [repeat constructor; discriminate|]. split; [apply silentb_spec; vm_compute; reflexivity|].
    apply not_occurs. vm_compute. reflexivity. }
  split; [exact G|]. split; [exact R|].
  rewrite (C62_priors_read example_lines (txt "    ") example_vars G R).
  - reflexivity.
  - repeat constructor; cbv; intuition discriminate.
  - intros v D I. cbn in I. decompose [or] I; try contradiction; match goal with H : _ = (v, D) |- _ => injection H as <- <- end; repeat split; discriminate.
Qed.
Definition beta_lines : list (line * text) :=
  [(Code (txt "def a_model():"), []);
   (Assign (txt "    ") (txt "mu") (txt "pz.") (Fam BetaScaled) (txt "2, 5, -1, 1") (txt ".rvs()"), []);
   (Assign (txt "    ") (txt "y") (txt "pz.") (Fam Normal) (txt "mu, 1") (txt ".rvs(100)"), [])].
Example beta_lines_read : good_lines beta_lines /\ good_return beta_lines (txt "    ") [txt "mu"; txt "y"] /\
  from_preliz (program beta_lines (txt "    ") [txt "mu"; txt "y"]) = Ok ([txt "mu"; txt "y"], [(txt "mu", Fam Beta)]).
Proof.
  assert (G : good_lines beta_lines) by (repeat (constructor; [line_ok|]); constructor).
  assert (R : good_return beta_lines (txt "    ") [txt "mu"; txt "y"]).
  { split; [plain_text|]. split; [discriminate|]. split; [repeat constructor; discriminate|]. split; [apply silentb_spec; vm_compute; reflexivity|].
    apply not_occurs. vm_compute. reflexivity. }
  split; [exact G|]. split; [exact R|]. vm_compute. reflexivity.
Qed.
(** The comments are not removed before the returned names are looked for: a comment can take the place of the return. *)
Theorem C62_return_comment_refuted : exists source,
  from_preliz (uncomment false source) = Ok ([txt "mu"; txt "y"], [(txt "mu", Fam Normal)]) /\
  from_preliz source = Ok ([txt "the"], [(txt "mu", Fam Normal); (txt "y", Fam Normal)]).
Proof.
  exists (txt "def a_model():
    # we return the samples
    mu = pz.Normal(0, 10).rvs()
    y = pz.Normal(mu, 1).rvs(100)
    return mu, y
"). split; vm_compute; reflexivity.
Qed.
(** A function that returns its variables in parentheses cannot be read: AttributeError. *)
Theorem C62_return_tuple_refuted :
  let source ret := txt "def a_model():
    mu = pz.Normal(0, 10).rvs()
    y = pz.Normal(mu, 1).rvs(100)
    return " ++ ret ++ [c_newline] in
  from_preliz (source (txt "mu, y")) = Ok ([txt "mu"; txt "y"], [(txt "mu", Fam Normal)]) /\ from_preliz (source (txt "(mu, y)")) = Err AttributeError.
Proof. split; vm_compute; reflexivity. Qed.

(* ---------------------------------------------------------------- bambi *)
Lemma class_of_word n c : In c n -> is_word c = false -> class_of n = Err AttributeError.
Proof.
  intros I W. unfold class_of. destruct (find _ all_classes) as [D|] eqn:E; [|reflexivity]. apply find_some in E as [_ E]. apply text_eqb_spec in E as <-.
  exfalso. exact (name_free D c W I).
Qed.
Definition prior_args : re :=
  Many true (Cat (some is_word) (Cat (lit (txt "=")) (Cat (some is_word) (opt (Cat (opt (lit (txt ","))) (any is_space)))))).
Lemma prior_group2 a : inside 2 a prior_call -> a = prior_args.
Proof.
  unfold prior_call. intros H.
  assert (Da : forall l, ~ inside 2 a (alt (map lit l))).
  { assert (Li : forall n, ~ inside 2 a (lit n)) by (induction n as [|c n IH]; cbn [lit]; intros Q; inversion Q; subst; [match goal with H : inside _ _ (Chr _) |- _ => inversion H end|contradiction]).
    induction l as [|n l IH]; [intros Q; inversion Q|]. cbn [map]. destruct l as [|n2 l]; [apply Li|]. cbn [map alt] in *. intros Q. inversion Q; subst; [exact (Li _ H1)|exact (IH H1)]. }
  repeat match goal with
  | H : inside _ _ (Group 1 _) |- _ => inversion H; subst; clear H
  | H : inside _ _ dist_alt |- _ => exfalso; exact (Da _ H)
  | H : inside _ _ (Group 2 _) |- _ => inversion H; subst; clear H; [reflexivity|]
  | H : inside _ _ (lit _) |- _ => cbn in H
  | H : inside _ _ (any _) |- _ => unfold any in H
  | H : inside _ _ (some _) |- _ => unfold some in H
  | H : inside _ _ (opt _) |- _ => unfold opt in H
  | H : inside _ _ close_ |- _ => unfold close_ in H
  | H : inside _ _ (Cat _ _) |- _ => inversion H; subst; clear H
  | H : inside _ _ (Or _ _) |- _ => inversion H; subst; clear H
  | H : inside _ _ (Many _ _) |- _ => inversion H; subst; clear H
  | H : inside _ _ (Chr _) |- _ => inversion H
  | H : inside _ _ Nothing |- _ => inversion H
  end.
Qed.
Lemma prior_args_lang w : lang prior_args w -> w = [] \/ In c_equal w.
Proof.
  unfold prior_args. intros H. inversion H as [| | | | | |g a u v H1 H2| | |]; subst; [left; reflexivity|right].
  inversion H1 as [| |a b u1 u2 H3 H4| | | | | | |]; subst. inversion H4 as [| |a b u3 u4 H5 H6| | | | | | |]; subst. change (lang (lit (txt "=")) u3) in H5. apply lit_lang in H5 as ->.
  apply in_or_app. left. apply in_or_app. right. left. reflexivity.
Qed.
Lemma prior_whole u : lang prior_call u -> exists a b, u = a ++ "034"%char :: b /\ ~ In c_equal a.
Proof.
  unfold prior_call. intros H. inversion H as [| |a b u1 u2 H1 H2| | | | | | |]; subst. inversion H2 as [| |a b u3 u4 H3 H4| | | | | | |]; subst.
  inversion H4 as [| |a b u5 u6 H5 H6| | | | | | |]; subst. change (lang (lit (txt "Prior(" ++ quote)) u5) in H5. apply lit_lang in H5 as ->. exists (u1 ++ u3 ++ txt "Prior("), u6. split.
  - rewrite <- !app_assoc. reflexivity.
  - apply many_chr_lang in H1. intros I. repeat (apply in_app_or in I as [I|I]).
    + exact (forallb_not_in is_space c_equal _ H1 eq_refl I).
    + unfold opt in H3. inversion H3 as [| | |a b u Q|a b u Q| | | | |]; subst; [|inversion Q; subst; contradiction].
      inversion Q as [| |a b x y Q1 Q2| | | | | | |]; subst. apply some_lang in Q1 as [Q1 _]. change (lang (lit (txt ".")) y) in Q2. apply lit_lang in Q2 as ->. apply in_app_or in I as [I|I].
      * exact (forallb_not_in is_word c_equal _ Q1 eq_refl I).
      * cbv in I. decompose [or] I; try discriminate; contradiction.
    + cbv in I. decompose [or] I; try discriminate; contradiction.
Qed.
Lemma split_hd sep a b : ~ In sep a -> exists c, hd [] (split_on sep (a ++ b)) = a ++ c.
Proof.
  intros N. induction a as [|x a IH]; [exists (hd [] (split_on sep b)); reflexivity|]. destruct IH as (c & IH); [intros I; apply N; right; exact I|].
  cbn [app split_on]. destruct (Ascii.eqb_spec x sep) as [->|_]; [exfalso; apply N; left; reflexivity|].
  destruct (split_on sep (a ++ b)) as [|p ps]; cbn in IH |- *; [exists c|exists c]; rewrite <- IH; reflexivity.
Qed.
Lemma strip_keeps c t : is_space c = false -> In c t -> In c (strip t).
Proof.
  intros S0 I. assert (L : forall u, In c u -> In c (lstrip u)).
  { induction u as [|d u IH]; [intros []|]. intros J. cbn [lstrip]. destruct (is_space d) eqn:D; [|exact J]. destruct J as [->|J]; [congruence|exact (IH J)]. }
  unfold strip. apply -> in_rev. apply L. apply -> in_rev. apply L, I.
Qed.
Lemma strip_sub c t : In c (strip t) -> In c t.
Proof.
  assert (L : forall u, In c (lstrip u) -> In c u).
  { induction u as [|d u IH]; [intros []|]. cbn [lstrip]. destruct (is_space d); [intros J; right; exact (IH J)|auto]. }
  unfold strip. intros I. apply in_rev in I. apply L in I. apply in_rev in I. apply L, I.
Qed.
Lemma split_sub sep t p c : In p (split_on sep t) -> In c p -> In c t.
Proof.
  revert p. induction t as [|d t IH]; intros p I J; [destruct I as [<-|[]]; contradiction|]. cbn [split_on] in I. destruct (Ascii.eqb d sep).
  - destruct I as [<-|I]; [contradiction|]. right. exact (IH p I J).
  - destruct (split_on sep t) as [|q qs]; [destruct I as [<-|[]]; destruct J as [->|[]]; left; reflexivity|].
    destruct I as [<-|I]; [destruct J as [->|J]; [left; reflexivity|right; apply (IH q (or_introl eq_refl) J)]|right; exact (IH p (or_intror I) J)].
Qed.
Lemma lang_chars (ok : ascii -> bool) r : forall u, lang r u ->
  (fix chars (r : re) : Prop := match r with Nothing | Boundary | Eol => True | Chr p => forall c, p c = true -> ok c = true | Cat a b | Or a b => chars a /\ chars b | Many _ a | Group _ a => chars a end) r ->
  forallb ok u = true.
Proof.
  induction 1; intros C; try reflexivity.
  - cbn. rewrite (C c H). reflexivity.
  - destruct C. rewrite forallb_app, IHlang1, IHlang2 by assumption. reflexivity.
  - destruct C. auto.
  - destruct C. auto.
  - rewrite forallb_app, IHlang1, IHlang2 by assumption. reflexivity.
  - auto.
Qed.
Lemma return_group1 a : inside 1 a return_re ->
  a = Cat (some is_word) (Many true (Cat (any is_space) (Cat (lit (txt ",")) (Cat (any is_space) (some is_word))))).
Proof.
  unfold return_re. intros H.
  repeat match goal with
  | H : inside _ _ (Group 1 _) |- _ => inversion H; subst; clear H; [reflexivity|]
  | H : inside _ _ (lit _) |- _ => cbn in H
  | H : inside _ _ (any _) |- _ => unfold any in H
  | H : inside _ _ (some _) |- _ => unfold some in H
  | H : inside _ _ (Cat _ _) |- _ => inversion H; subst; clear H
  | H : inside _ _ (Many _ _) |- _ => inversion H; subst; clear H
  | H : inside _ _ (Chr _) |- _ => inversion H
  | H : inside _ _ Nothing |- _ => inversion H
  end.
Qed.
Lemma return_no_quote source vs v : match_return_variables source = Ok vs -> In v vs -> ~ In "034"%char v.
Proof.
  unfold match_return_variables, search. intros H I Q. destruct (search_from return_re None source) as [m|] eqn:E; [|discriminate]. injection H as <-.
  apply in_map_iff in I as (p & <- & I). apply strip_sub in Q. assert (J : In "034"%char (group m 1)) by (exact (split_sub _ _ _ _ I Q)).
  apply search_lang in E as [_ E]. unfold group in J. destruct (find _ (groups m)) as [[n w]|] eqn:Fd; [|contradiction]. apply find_some in Fd as [Fi Fn].
  cbn in Fn, J. apply Nat.eqb_eq in Fn as ->. destruct (E _ _ Fi) as (a & Ia & La).
  set (ok := fun c => negb (Ascii.eqb c "034"%char)).
  assert (Wo : forall c, is_word c = true -> ok c = true) by (intros [[] [] [] [] [] [] [] []]; vm_compute; congruence).
  assert (So : forall c, is_space c = true -> ok c = true) by (intros [[] [] [] [] [] [] [] []]; vm_compute; congruence).
  assert (Co : forall c, Ascii.eqb ","%char c = true -> ok c = true) by (intros c Ec; apply Ascii.eqb_eq in Ec as <-; reflexivity).
  enough (A : forallb ok w = true) by exact (forallb_not_in ok "034"%char w A eq_refl J).
  apply return_group1 in Ia as ->. apply (lang_chars ok _ w La). cbn. repeat split; auto.
Qed.
(** With bambi, ppa raises AttributeError for every model in which it finds a prior: it takes the arguments of the prior for the name of its family. *)
Theorem C62_bambi_refuted build source vs :
  match_return_variables source = Ok vs -> match_preliz_dist (build source) EBambi <> [] -> from_bambi_model build source = Err AttributeError.
Proof.
  intros R M. unfold from_bambi_model. rewrite R. cbn [bind]. destruct (match_preliz_dist (build source) EBambi) as [|m ms] eqn:E; [congruence|].
  assert (Im : In m (match_preliz_dist (build source) EBambi)) by (rewrite E; left; reflexivity). unfold match_preliz_dist, finditer in Im.
  apply finditer_lang in Im as [Lw Lg]. unfold dict_model.
  assert (Nv : vs <> []).
  { intros ->. unfold match_return_variables in R. destruct (search return_re source) as [m0|]; [|discriminate]. injection R as R.
    assert (Sn : forall s t, split_on s t <> []) by (intros s t; destruct t as [|c t]; cbn; [discriminate|]; destruct (Ascii.eqb c s); [discriminate|]; destruct (split_on s t); discriminate).
    destruct (split_on c_comma (group m0 1)) eqn:Q; [exact (Sn _ _ Q)|discriminate]. }
  destruct (exists_last Nv) as (init & obs & ->). rewrite rev_app_distr. cbn [rev app dict_loop].
  destruct (prior_whole _ Lw) as (a & b & Ew & Na).
  assert (Qv : In "034"%char (strip (hd [] (split_on c_equal (whole m))))).
  { apply strip_keeps; [reflexivity|]. rewrite Ew. replace (a ++ "034"%char :: b) with ((a ++ ["034"%char]) ++ b) by (rewrite <- app_assoc; reflexivity).
    destruct (split_hd c_equal (a ++ ["034"%char]) b) as (c & ->).
    - intros J. apply in_app_or in J as [J|[J|[]]]; [contradiction|discriminate].
    - apply in_or_app. left. apply in_or_app. right. left. reflexivity. }
  rewrite text_eqb_neq.
  - unfold group at 1. destruct (find _ (groups m)) as [[n w]|] eqn:Fd; [|reflexivity]. apply find_some in Fd as [Fi Fn]. cbn in Fn. apply Nat.eqb_eq in Fn as ->.
    destruct (Lg _ _ Fi) as (r & Ir & Lr). apply prior_group2 in Ir as ->. cbn [snd]. destruct (prior_args_lang _ Lr) as [->|Iq]; [reflexivity|].
    rewrite (class_of_word w c_equal Iq eq_refl). reflexivity.
  - intros Q. rewrite Q in Qv. apply (return_no_quote source _ obs R); [apply in_or_app; right; left; reflexivity|exact Qv].
Qed.
Example bambi_prior : exists vs,
  let source := txt "def a_model():
    prior = {'Intercept' : bmb.Prior(""Normal"", mu=0, sigma=1)}
    model = bmb.Model('y ~ 1', data, priors=prior)
    return Intercept, y
" in
  match_return_variables source = Ok vs /\ List.length (match_preliz_dist source EBambi) = 1%nat /\ from_bambi_model (fun s => s) source = Err AttributeError.
Proof. exists [txt "Intercept"; txt "y"]. vm_compute. auto. Qed.

(* ---------------------------------------------------------------- the boxes of predictive_explorer *)
(** The distribution, position and function of each use are possible: the class has initial values and so many parameters. *)
Definition good_use (u : text * (cls * Z * option text)) : Prop :=
  let '(_, (D, i, _)) := u in D <> Fam BetaScaled /\ D <> Fam BetaBinomial /\ make_initial D = Ok D /\ (0 <= i < Z.of_nat (List.length (supports D)))%Z.
Lemma reread_id us : (forall u, In u us -> good_use u) -> map reread us = us.
Proof.
  intros H. rewrite <- (map_id us) at 2. apply map_ext_in. intros [v [[D i] f]] I. destruct (H _ I) as (A & B & _). unfold reread. cbn. f_equal. f_equal. f_equal.
  destruct D as [[]| | | | | | |]; try reflexivity; congruence.
Qed.
Lemma last_use_in {A} p (us : list (text * A)) x : last_use p us = Some x -> In (p, x) us.
Proof.
  unfold last_use. destruct (find _ (rev us)) as [[v y]|] eqn:E; [|discriminate]. intros H. injection H as <-. apply find_some in E as [I Q]. cbn in Q.
  apply text_eqb_spec in Q as ->. apply in_rev in I. exact I.
Qed.
Lemma explorer_parse ls params e uss :
  e <> EBambi -> good_lines ls -> params <> [] -> Forall identifier params ->
  Forall2 (line_uses params (match e with EPymc => -1 | _ => 0 end)%Z) ls uss -> (forall u, In u (List.concat uss) -> good_use u) ->
  parse_function_for_pred_textboxes (erase comment (show ls)) params e = Ok (put_uses (List.concat uss) []).
Proof.
  intros He G N F U H. unfold parse_function_for_pred_textboxes.
  assert (Eb : erase comment (show ls) = show (map bare ls)).
  { rewrite erase_comment, <- (app_nil_r (show ls)), uncomment_show by exact G. cbn [uncomment]. apply app_nil_r. }
  rewrite Eb. rewrite (pred_loop_show params e He N F ls _ uss).
  - rewrite reread_id by exact H. reflexivity.
  - rewrite <- (app_nil_r (show (map bare ls))). rewrite matches_show.
    + clear. induction ls as [|lc ls IH]; [reflexivity|]. cbn [map flat_map]. rewrite IH. reflexivity.
    + exact He.
    + apply Forall_map. eapply Forall_impl; [|exact G]. intros lc [A _]. split; [exact A|left; reflexivity].
    + split; intros [].
    + intros a n b (D & ->) E. pose proof (name_nonempty D) as Nn. symmetry in E. apply app_eq_nil in E as [_ E]. apply app_eq_nil in E as [E _]. contradiction.
  - replace (- offset e)%Z with (match e with EPymc => -1 | _ => 0 end)%Z by (destruct e; reflexivity). exact U.
  - intros [v [[D i] f]] I. destruct (H _ I) as (_ & _ & M & _). exact M.
Qed.
Lemma explorer_model float ls params e uss :
  e <> EBambi -> good_lines ls -> params <> [] -> Forall identifier params ->
  Forall2 (line_uses params (match e with EPymc => -1 | _ => 0 end)%Z) ls uss -> (forall u, In u (List.concat uss) -> good_use u) ->
  explorer_boxes float (show ls) params e = get_textboxes float params (put_uses (List.concat uss) []).
Proof. intros He G N F U H. unfold explorer_boxes. rewrite (explorer_parse ls params e uss) by assumption. reflexivity. Qed.
(** For every such function whose parameters all appear in the arguments of distributions, one box is shown for each parameter, in order, with the limits of the
    parameter of the distribution at the position where it is (last) used, corrected for the function applied to it. With PyMC the first argument, the name of the
    variable, is not counted. *)
Theorem C62_boxes float ls params e uss :
  e <> EBambi -> good_lines ls -> params <> [] -> Forall identifier params ->
  Forall2 (line_uses params (match e with EPymc => -1 | _ => 0 end)%Z) ls uss -> (forall u, In u (List.concat uss) -> good_use u) ->
  (forall p, In p params -> last_use p (List.concat uss) <> None) ->
  exists boxes, explorer_boxes float (show ls) params e = Ok boxes /\
    Forall2 (fun p b => fst b = p /\ exists D i f lim, last_use p (List.concat uss) = Some (D, Z.of_nat i, f) /\ nth_error (supports D) i = Some lim /\
                          snd b = box_limits float lim f) params boxes.
Proof.
  intros He G N F U H L. rewrite (explorer_model float ls params e uss) by assumption. clear N F U G He. induction params as [|p params IH].
  - exists []. split; [reflexivity|constructor].
  - destruct IH as (boxes & E & R); [intros q I; apply L; right; exact I|]. cbn [get_textboxes]. rewrite find_put_uses. cbn [dict_find].
    destruct (last_use p (List.concat uss)) as [[[D i] f]|] eqn:Q; [|exfalso; exact (L p (or_introl eq_refl) Q)].
    destruct (H _ (last_use_in _ _ _ Q)) as (_ & _ & _ & B). unfold py_index.
    replace (i <? 0)%Z with false by (symmetry; apply Z.ltb_ge; lia). replace (i <? 0)%Z with false by (symmetry; apply Z.ltb_ge; lia).
    destruct (nth_error (supports D) (Z.to_nat i)) as [lim|] eqn:Nt; [|apply nth_error_None in Nt; lia]. cbn [bind]. rewrite E. cbn [bind].
    eexists. split; [reflexivity|]. constructor; [|exact R]. cbn [fst snd]. split; [reflexivity|]. exists D, (Z.to_nat i), f, lim.
    rewrite Z2Nat.id by lia. auto.
Qed.
(** A parameter that appears in no argument of a distribution (for instance because it is used in an earlier line) stops the explorer with KeyError. *)
Theorem C62_unused_parameter_refuted float ls params e uss p :
  e <> EBambi -> good_lines ls -> Forall identifier params ->
  Forall2 (line_uses params (match e with EPymc => -1 | _ => 0 end)%Z) ls uss -> (forall u, In u (List.concat uss) -> good_use u) ->
  In p params -> last_use p (List.concat uss) = None -> explorer_boxes float (show ls) params e = Err KeyError.
Proof.
  intros He G F U H I L. rewrite (explorer_model float ls params e uss); try assumption; [|intros ->; contradiction]. clear F U G He. induction params as [|q params IH]; [contradiction|].
  cbn [get_textboxes]. rewrite find_put_uses. cbn [dict_find]. destruct (last_use q (List.concat uss)) as [[[D i] f]|] eqn:Q; [|reflexivity].
  destruct I as [->|I]; [congruence|]. destruct (H _ (last_use_in _ _ _ Q)) as (_ & _ & _ & B). unfold py_index.
  replace (i <? 0)%Z with false by (symmetry; apply Z.ltb_ge; lia). replace (i <? 0)%Z with false by (symmetry; apply Z.ltb_ge; lia).
  destruct (nth_error (supports D) (Z.to_nat i)) as [lim|] eqn:Nt; [|apply nth_error_None in Nt; lia]. cbn [bind]. rewrite IH by exact I. reflexivity.
Qed.
(** def a_model(a, b): mu = pz.Normal(a, np.exp(b)).rvs(); y = pz.Normal(mu, 1).rvs(100) *)
Definition explorer_lines : list (line * text) :=
  [(Code (txt "def a_model(a, b):"), []);
   (Assign (txt "    ") (txt "mu") (txt "pz.") (Fam Normal) (commas [txt "a"; txt "np.exp(b)"]) (txt ".rvs()"), txt "# prior");
   (Assign (txt "    ") (txt "y") (txt "pz.") (Fam Normal) (commas [txt "mu"; txt "1"]) (txt ".rvs(100)"), []);
   (Code (txt "    return mu, y"), [])].
Definition explorer_uses : list (list (text * (cls * Z * option text))) :=
  [[]; [(txt "a", (Fam Normal, 0%Z, None)); (txt "b", (Fam Normal, 1%Z, Some (txt "exp")))]; []; []].
Ltac no_use := apply uses_none; intros w I J; cbv in I, J; intuition congruence.
Example explorer_example : good_lines explorer_lines /\ Forall2 (line_uses [txt "a"; txt "b"] 0) explorer_lines explorer_uses /\
  Forall identifier [txt "a"; txt "b"] /\ (forall u, In u (List.concat explorer_uses) -> good_use u).
Proof.
  split; [|split; [|split]].
  - constructor; [line_ok|]. constructor; [|constructor; [line_ok|constructor; [line_ok|constructor]]]. split; [|right; eexists; split; [reflexivity|texts]]. cbn [good_line fst].
    split; [reflexivity|]; split; [plain_text|]; split; [reflexivity|]; split; [discriminate|]; split; [plain_text|]; split; [apply leadsb_spec; vm_compute; reflexivity|].
    split; [apply (shallow_call (txt "a, np.exp") (txt "b")); split; texts|]. split; [texts|]. split; [plain_text|apply silentb_spec; vm_compute; reflexivity].
  - unfold explorer_lines, explorer_uses. constructor; [reflexivity|]. constructor; [|constructor; [|constructor; [reflexivity|constructor]]].
    + exists [txt "a"; txt "np.exp(b)"], [Some (None, txt "a"); Some (Some (txt "exp"), txt "b")]. split; [discriminate|]. split; [reflexivity|].
      split; [repeat (constructor; [split; texts|]); constructor|]. split; [|reflexivity]. constructor; [apply uses_plain; left; reflexivity|]. constructor; [|constructor].
      apply (uses_call _ (txt "np.") (txt "exp") (txt "b)") (txt "b")).
      * right. exists (txt "np"). reflexivity.
      * split; texts.
      * split; texts.
      * texts.
      * apply not_occurs. vm_compute. reflexivity.
      * exists [txt "np"; txt "exp"], []. split; [reflexivity|]. split; [right; left; reflexivity|]. intros w I J. cbv in I, J. intuition congruence.
    + exists [txt "mu"; txt "1"], [None; None]. split; [discriminate|]. split; [reflexivity|]. split; [repeat (constructor; [split; texts|]); constructor|]. split; [|reflexivity].
      constructor; [no_use|]. constructor; [no_use|constructor].
  - repeat constructor; cbn; lia.
  - intros u I. cbn in I. decompose [or] I; try contradiction; subst u; unfold good_use; repeat split; try discriminate; cbn; lia.
Qed.

(** Keyword arguments out of order get each other's limits: here the scale of a Normal is shown with the limits of its location. *)
Theorem C62_keyword_refuted float : exists source, let sigma := txt "b" in
  parse_function_for_pred_textboxes source [txt "a"; sigma] EPreliz = Ok [(sigma, (Fam Normal, 0%Z, Some (txt "sigma=b"))); (txt "a", (Fam Normal, 1%Z, Some (txt "mu=a")))] /\
  exists la, explorer_boxes float source [txt "a"; sigma] EPreliz = Ok [(txt "a", la); (sigma, real_line)].
Proof.
  exists (txt "def a_model(a, b):
    y = pz.Normal(sigma=b, mu=a).rvs(100)
    return y
"). split; [vm_compute; reflexivity|]. eexists. unfold explorer_boxes.
  match goal with |- context [parse_function_for_pred_textboxes ?s ?p ?e] => replace (parse_function_for_pred_textboxes s p e) with
    (Ok [(txt "b", (Fam Normal, 0%Z, Some (txt "sigma=b"))); (txt "a", (Fam Normal, 1%Z, Some (txt "mu=a")))]) by (vm_compute; reflexivity) end.
  reflexivity.
Qed.
(** A parameter used in a distribution that cannot be made without arguments stops the explorer: KeyError for MvNormal, Mixture and Hurdle,
    TypeError for Truncated and Censored. *)
Theorem C62_no_initial_values_refuted float :
  let use name := txt "    y = pz." ++ txt name ++ txt "(x, a).rvs()
" in
  (forall name, In name ["MvNormal"; "Mixture"; "Hurdle"]%string -> explorer_boxes float (use name) [txt "a"] EPreliz = Err KeyError) /\
  (forall name, In name ["Truncated"; "Censored"]%string -> explorer_boxes float (use name) [txt "a"] EPreliz = Err TypeError).
Proof.
  intro use. split; intros name H; repeat (destruct H as [<-|H]; [vm_compute; reflexivity|]); contradiction.
Qed.
(** An argument that is a call with several arguments shifts the positions: here the parameter is shown as the scale of the Normal, and with a HalfNormal the
    explorer fails with IndexError. *)
Theorem C62_nested_commas_refuted float :
  parse_function_for_pred_textboxes (txt "    y = pz.Normal(np.maximum(0, a), 1)
") [txt "a"] EPreliz = Ok [(txt "a", (Fam Normal, 1%Z, Some (txt "a)")))] /\
  explorer_boxes float (txt "    y = pz.HalfNormal(np.maximum(0, a))
") [txt "a"] EPreliz = Err IndexError.
Proof.
  split; [vm_compute; reflexivity|]. unfold explorer_boxes.
  match goal with |- context [parse_function_for_pred_textboxes ?s ?p ?e] => replace (parse_function_for_pred_textboxes s p e) with
    (Ok [(txt "a", (Fam HalfNormal, 1%Z, Some (txt "a)")))]) by (vm_compute; reflexivity) end. reflexivity.
Qed.
(** Two pairs of parentheses inside each other hide the arguments: here b is not found although it is the scale of the Normal. *)
Theorem C62_nested_calls_refuted float :
  explorer_boxes float (txt "    y = pz.Normal(np.log(np.exp(a)), b)
") [txt "a"; txt "b"] EPreliz = Err KeyError.
Proof.
  unfold explorer_boxes. match goal with |- context [parse_function_for_pred_textboxes ?s ?p ?e] => replace (parse_function_for_pred_textboxes s p e) with
    (Ok [(txt "a", (Fam Normal, 0%Z, Some (txt "exp")))]) by (vm_compute; reflexivity) end. reflexivity.
Qed.

(* ---------------------------------------------------------------- the limits *)
Open Scope R_scope.
(** [x] is between the limits shown. *)
Definition between_limits (b : bound) (x : R) : Prop := xltb (fst b) (Fin x) = true /\ match snd b with Some u => xltb (Fin x) u = true | None => True end.
Definition expit (x : R) : R := / (1 + exp (- x)).
Lemma Rltb_lt a b : Rltb a b = true -> a < b.
Proof. intros H. destruct (Rltb_spec a b); [assumption|discriminate]. Qed.
Section BoxLimits.
Variable float : text -> option R.
Lemma lower_eps : xeqb (Fin eps) (Fin eps) = true.
Proof. cbn. apply Reqb_refl. Qed.
Lemma limits_positive f : box_limits float positive (Some f) =
  ((if is_one_of ["exp"; "abs"; "expit"; "logistic"]%string f then NInf
    else if is_one_of ["log"%string] f then Fin 1
    else match float f with Some v => if Reqb (v - 2 * IZR (Int_part (v / 2))) 0 then NInf else Fin eps | None => Fin eps end), Some PInf).
Proof. unfold box_limits, positive. rewrite lower_eps. reflexivity. Qed.
(** For a parameter that must be positive, the limits shown for a, when a function of a is used, are those where the function is positive: for exp, expit and
    log exactly, for abs and the even powers except at 0. *)
Theorem C62_limits_positive :
  (forall x, between_limits (box_limits float positive (Some (txt "exp"))) x <-> 0 < exp x) /\
  (forall x, between_limits (box_limits float positive (Some (txt "expit"))) x <-> 0 < expit x) /\
  (forall x, between_limits (box_limits float positive (Some (txt "log"))) x <-> 0 < ln x) /\
  (forall x, x <> 0 -> between_limits (box_limits float positive (Some (txt "abs"))) x /\ 0 < Rabs x) /\
  (forall p n x, float p = Some (INR (2 * n)) -> is_one_of ["exp"; "abs"; "expit"; "logistic"; "log"]%string p = false -> x <> 0 ->
     between_limits (box_limits float positive (Some p)) x /\ 0 < x ^ (2 * n)) /\
  (forall p n x, float p = Some (INR (2 * n + 1)) -> is_one_of ["exp"; "abs"; "expit"; "logistic"; "log"]%string p = false ->
     between_limits (box_limits float positive (Some p)) x -> 0 < x ^ (2 * n + 1)).
Proof.
  assert (Names : forall p, is_one_of ["exp"; "abs"; "expit"; "logistic"; "log"]%string p = false ->
    is_one_of ["exp"; "abs"; "expit"; "logistic"]%string p = false /\ is_one_of ["log"%string] p = false).
  { intros p H. unfold is_one_of in *. cbn [existsb] in *. repeat (apply orb_false_iff in H as [? H]). repeat match goal with H : _ = false |- _ => rewrite H; clear H end. auto. }
  assert (Half : forall m r : Z, (0 <= r < 2)%Z -> Int_part (IZR (2 * m + r) / 2) = m).
  { intros m r Hr. unfold Int_part. assert (U : up (IZR (2 * m + r) / 2) = (m + 1)%Z).
    { symmetry. apply tech_up; rewrite !plus_IZR, mult_IZR; [|]; assert (0 <= IZR r) by (apply IZR_le; lia); assert (IZR r <= 1) by (apply IZR_le; lia); lra. }
    rewrite U. lia. }
  assert (ED : forall x, 0 < expit x) by (intros x; unfold expit; apply Rinv_0_lt_compat; pose proof (exp_pos (- x)); lra).
  split; [|split; [|split; [|split; [|split]]]].
  - intros x. rewrite limits_positive. split; [intros _; apply exp_pos|intros _; split; reflexivity].
  - intros x. rewrite limits_positive. split; [intros _; apply ED|intros _; split; reflexivity].
  - intros x. rewrite limits_positive. unfold between_limits. cbn [fst snd]. change (is_one_of ["exp"; "abs"; "expit"; "logistic"]%string (txt "log")) with false.
    change (is_one_of ["log"%string] (txt "log")) with true. cbv iota. cbn [xltb]. split.
    + intros [H _]. apply Rltb_lt in H. rewrite <- ln_1. apply ln_increasing; lra.
    + intros H. split; [|reflexivity]. apply Rltb_true. destruct (Rlt_dec 0 x) as [P|P].
      * rewrite <- ln_1 in H. apply ln_lt_inv in H; lra.
      * exfalso. unfold ln in H. destruct (Rlt_dec 0 x); [contradiction|lra].
  - intros x Hx. rewrite limits_positive. split; [split; reflexivity|apply Rabs_pos_lt, Hx].
  - intros p n x Hp Hn Hx. destruct (Names p Hn) as [H1 H2]. rewrite limits_positive, H1, H2, Hp.
    replace (INR (2 * n)) with (IZR (2 * Z.of_nat n + 0)) by (rewrite INR_IZR_INZ; f_equal; lia). rewrite Half by lia.
    replace (IZR (2 * Z.of_nat n + 0) - 2 * IZR (Z.of_nat n)) with 0 by (rewrite plus_IZR, mult_IZR; lra). rewrite Reqb_refl. split; [split; reflexivity|].
    rewrite pow_mult. apply pow_lt. cbn. rewrite Rmult_1_r. apply Rsqr_pos_lt in Hx. exact Hx.
  - intros p n x Hp Hn. destruct (Names p Hn) as [H1 H2]. rewrite limits_positive, H1, H2, Hp.
    replace (INR (2 * n + 1)) with (IZR (2 * Z.of_nat n + 1)) by (rewrite INR_IZR_INZ; f_equal; lia). rewrite Half by lia.
    replace (IZR (2 * Z.of_nat n + 1) - 2 * IZR (Z.of_nat n)) with 1 by (rewrite plus_IZR, mult_IZR; lra). rewrite Reqb_false by lra.
    unfold between_limits. cbn [fst snd xltb]. intros [H _]. apply Rltb_lt in H. apply pow_lt. pose proof eps_pos. lra.
Qed.
(** For a probability given by expit or logistic, the box is labelled with the lower limit infinity: no number is between the limits, although every number gives a
    probability. *)
Theorem C62_expit_refuted : forall x, (0 < expit x < 1) /\ ~ between_limits (box_limits float open_unit (Some (txt "expit"))) x.
Proof.
  intros x. split.
  - unfold expit. pose proof (exp_pos (- x)) as H. split; [apply Rinv_0_lt_compat; lra|]. rewrite <- Rinv_1 at 2. apply Rinv_1_lt_contravar; lra.
  - unfold between_limits, box_limits, open_unit. cbn [fst snd]. replace (xeqb (Fin (1 - eps)) (Fin (1 - eps))) with true by (symmetry; cbn; apply Reqb_refl).
    change (is_one_of ["expit"; "logistic"]%string (txt "expit")) with true. cbn [andb]. cbn. intros [H _]. discriminate.
Qed.
(** The upper limit is never corrected: for the success probability of a Bernoulli given by exp(a), the box allows every a below 1, but exp(a) is a probability
    only for a below 0. *)
Theorem C62_exp_probability_refuted : exists a, between_limits (box_limits float unit_bound (Some (txt "exp"))) a /\ 1 < exp a.
Proof.
  exists (1 / 2). split.
  - unfold box_limits, unit_bound. rewrite lower_eps. change (is_one_of ["exp"; "abs"; "expit"; "logistic"]%string (txt "exp")) with true.
    change (is_one_of ["expit"; "logistic"]%string (txt "exp")) with false. rewrite andb_false_r. split; cbn; [reflexivity|]. apply Rltb_true. lra.
  - assert (H : exp 0 < exp (1 / 2)) by (apply exp_increasing; lra). rewrite exp_0 in H. exact H.
Qed.
End BoxLimits.
Close Scope R_scope.

(* ---------------------------------------------------------------- draws *)
Section DrawProofs.
Context {V : Type}.
(** The value of a variable in one run of the function. *)
Definition value (vs : list text) (run : list V) (n : text) : option V := dict_find (combine vs run) n.
Lemma zip_run_spec obs (vs : list text) : forall (run : list V) pp prior,
  NoDup vs -> List.length run = List.length vs -> (forall n, In n vs -> n <> obs -> dict_find prior n <> None) ->
  exists prior', zip_run vs obs run pp prior = Ok (pp ++ match value vs run obs with Some y => [y] | None => [] end, prior') /\
    forall n, dict_find prior' n = match value vs run n with
                                   | Some x => if text_eqb n obs then dict_find prior n else match dict_find prior n with Some l => Some (l ++ [x]) | None => None end
                                   | None => dict_find prior n
                                   end.
Proof.
  induction vs as [|v vs IH]; intros run pp prior Nd L H.
  - destruct run; [|discriminate]. exists prior. cbn. rewrite app_nil_r. split; reflexivity.
  - destruct run as [|x run]; [discriminate|]. inversion Nd as [|? ? Nv Nd2]; subst. cbn [List.length] in L. injection L as L. cbn [zip_run].
    assert (Fresh : forall n r, List.length r = List.length vs -> n = v -> value vs r n = None).
    { intros n r Lr ->. unfold value. clear -Nv. revert r. induction vs as [|w vs IH]; intros r; [reflexivity|]. destruct r as [|y r]; [reflexivity|]. cbn.
      rewrite text_eqb_neq by (intros ->; apply Nv; left; reflexivity). apply IH. intros I. apply Nv. right. exact I. }
    destruct (text_eqb v obs) eqn:Q.
    + apply text_eqb_spec in Q as ->. destruct (IH run (pp ++ [x]) prior Nd2 L) as (prior' & E & P).
      * intros n I N. apply H; [right; exact I|exact N].
      * exists prior'. rewrite E. unfold value in *. cbn [combine dict_find]. rewrite text_eqb_refl. rewrite (Fresh obs run L eq_refl), app_nil_r. split; [reflexivity|].
        intros n. rewrite P. destruct (text_eqb n obs) eqn:Qn; [|reflexivity]. apply text_eqb_spec in Qn as ->. rewrite (Fresh obs run L eq_refl). reflexivity.
    + assert (Nvo : v <> obs) by (intros ->; rewrite text_eqb_refl in Q; discriminate).
      destruct (dict_find prior v) as [l|] eqn:Ev; [|exfalso; exact (H v (or_introl eq_refl) Nvo Ev)].
      destruct (IH run pp (dict_put prior v (l ++ [x])) Nd2 L) as (prior' & E & P).
      * intros n I N. rewrite find_put. destruct (text_eqb n v); [discriminate|]. apply H; [right; exact I|exact N].
      * exists prior'. rewrite E. unfold value in *. cbn [combine dict_find]. rewrite (text_eqb_neq obs v) by congruence. split; [reflexivity|].
        intros n. rewrite P, !find_put. destruct (text_eqb n v) eqn:Qn.
        -- apply text_eqb_spec in Qn as ->. rewrite (Fresh v run L eq_refl), Q, Ev. reflexivity.
        -- reflexivity.
Qed.
Lemma value_in (vs : list text) : forall (run : list V) n, List.length run = List.length vs -> In n vs -> exists x, value vs run n = Some x.
Proof.
  unfold value. induction vs as [|v vs IH]; intros run n L I; [contradiction|]. destruct run as [|x run]; [discriminate|]. cbn in L |- *. injection L as L.
  destruct (text_eqb n v) eqn:Q; [exists x; reflexivity|]. destruct I as [->|I]; [rewrite text_eqb_refl in Q; discriminate|]. apply IH; assumption.
Qed.
Lemma value_out (vs : list text) (run : list V) n : ~ In n vs -> value vs run n = None.
Proof.
  unfold value. revert run. induction vs as [|v vs IH]; intros run N; [reflexivity|]. destruct run as [|x run]; [reflexivity|]. cbn.
  rewrite text_eqb_neq by (intros ->; apply N; left; reflexivity). apply IH. intros I. apply N. right. exact I.
Qed.
Definition column (vs : list text) (n : text) (col : list V) (runs : list (list V)) : Prop := Forall2 (fun x run => value vs run n = Some x) col runs.
Lemma runs_loop_spec vs obs : NoDup vs -> In obs vs -> forall todo done pp prior,
  Forall (fun run => List.length run = List.length vs) todo -> column vs obs pp done ->
  (forall n, In n vs -> n <> obs -> exists l, dict_find prior n = Some l /\ column vs n l done) -> (forall n, ~ In n vs -> dict_find prior n = None) ->
  exists pp' prior', runs_loop vs obs todo pp prior = Ok (pp', prior') /\ column vs obs pp' (done ++ todo) /\
    (forall n, In n vs -> n <> obs -> exists l, dict_find prior' n = Some l /\ column vs n l (done ++ todo)) /\ (forall n, ~ In n vs -> dict_find prior' n = None).
Proof.
  intros Nd Io. induction todo as [|run todo IH]; intros done pp prior F Cp Cn Out.
  - exists pp, prior. rewrite app_nil_r. split; [reflexivity|]. auto.
  - inversion F as [|? ? L F2]; subst. cbn [runs_loop]. destruct (zip_run_spec obs vs run pp prior Nd L) as (prior' & E & P).
    + intros n I N. destruct (Cn n I N) as (l & -> & _). discriminate.
    + rewrite E. cbn [bind fst snd]. destruct (value_in vs run obs L Io) as (y & Ey). rewrite Ey.
      destruct (IH (done ++ [run]) (pp ++ [y]) prior' F2) as (pp2 & prior2 & E2 & C2 & N2 & O2).
      * apply Forall2_app; [exact Cp|]. constructor; [exact Ey|constructor].
      * intros n I N. destruct (Cn n I N) as (l & El & Cl). destruct (value_in vs run n L I) as (x & Ex). exists (l ++ [x]). split.
        -- rewrite P, Ex, El. rewrite text_eqb_neq by exact N. reflexivity.
        -- apply Forall2_app; [exact Cl|]. constructor; [exact Ex|constructor].
      * intros n I. rewrite P, value_out by exact I. apply Out, I.
      * exists pp2, prior2. rewrite <- !app_assoc in *. cbn [app] in *. auto.
Qed.
Lemma start_dict (ns : list text) : forall d : list (text * list V), (forall n, In n ns -> dict_find (fold_left (fun d n => dict_put d n []) ns d) n = Some []) /\
  (forall n, ~ In n ns -> dict_find (fold_left (fun d n => dict_put d n []) ns d) n = dict_find d n).
Proof.
  induction ns as [|v ns IH]; intros d; [split; [intros n []|reflexivity]|]. cbn [fold_left]. destruct (IH (dict_put d v [])) as [A B]. split.
  - intros n [->|I]; [|apply A, I]. destruct (in_dec (list_eq_dec ascii_dec) n ns) as [I|I]; [apply A, I|]. rewrite B by exact I. rewrite find_put, text_eqb_refl. reflexivity.
  - intros n I. rewrite B by (intros J; apply I; right; exact J). rewrite find_put. rewrite text_eqb_neq by (intros ->; apply I; left; reflexivity). reflexivity.
Qed.
Lemma take_rows_spec (l : list V) selected : Forall (fun i => (i < List.length l)%nat) selected ->
  exists t, take_rows l selected = Ok t /\ Forall2 (fun i x => nth_error l i = Some x) selected t.
Proof.
  induction 1 as [|i sel Hi F (t & E & R)]; [exists []; split; [reflexivity|constructor]|]. cbn [take_rows].
  destruct (nth_error l i) as [x|] eqn:Q; [|apply nth_error_None in Q; lia]. rewrite E. exists (x :: t). split; [reflexivity|constructor; assumption].
Qed.
Lemma Forall2_length {A B} (R : A -> B -> Prop) l1 l2 : Forall2 R l1 l2 -> List.length l1 = List.length l2.
Proof. induction 1; cbn; congruence. Qed.
Lemma Forall2_nth {A B} (R : A -> B -> Prop) l1 l2 i b : Forall2 R l1 l2 -> nth_error l2 i = Some b -> exists a, nth_error l1 i = Some a /\ R a b.
Proof. intros H. revert i. induction H as [|x y l1 l2 H1 H2 IH]; intros [|i] E; try discriminate; cbn in *; [injection E as <-; eauto|apply IH, E]. Qed.
(** Whatever the function draws in its runs, the rows stay together: the prediction with number i and the values of the priors with number i come from the same
    run, and so does each row of the priors picked for a selection of predictions. *)
Theorem C62_rows vs (runs : list (list V)) selected names :
  vs <> [] -> NoDup vs -> Forall (fun run => List.length run = List.length vs) runs ->
  Forall (fun i => (i < List.length runs)%nat) selected -> (forall n, In n names -> In n vs /\ n <> last vs []) ->
  exists predictions priors picked,
    get_prior_pp_samples vs runs = Ok (predictions, priors) /\ select_prior_samples selected priors names = Ok picked /\
    List.length predictions = List.length runs /\
    (forall i run, nth_error runs i = Some run -> nth_error predictions i = value vs run (last vs [])) /\
    (forall k i run n, nth_error selected k = Some i -> nth_error runs i = Some run -> In n names ->
       exists col, In (n, col) picked /\ List.length col = List.length selected /\ nth_error col k = value vs run n).
Proof.
  intros N Nd F Fs Hn. destruct (exists_last N) as (ns & obs & ->). rewrite last_last in *. unfold get_prior_pp_samples. rewrite rev_app_distr. cbn [rev app].
  rewrite removelast_last. destruct (start_dict ns []) as [A B].
  assert (No : ~ In obs ns) by (intros I; apply NoDup_remove_2 in Nd; apply Nd; rewrite app_nil_r; exact I).
  destruct (runs_loop_spec (ns ++ [obs]) obs Nd) with (todo := runs) (done := @nil (list V)) (pp := @nil V) (prior := fold_left (fun (d : list (text * list V)) n => dict_put d n []) ns [])
    as (pp & prior & E & Cp & Cn & _).
  - apply in_or_app. right. left. reflexivity.
  - exact F.
  - constructor.
  - intros n I Nn. exists []. split; [apply A; apply in_app_or in I as [I|[I|[]]]; [exact I|congruence]|constructor].
  - intros n I. rewrite B; [reflexivity|]. intros J. apply I, in_or_app. left. exact J.
  - cbn [app] in *. rewrite E. exists pp, prior.
    assert (Sel : exists picked, select_prior_samples selected prior names = Ok picked /\ forall n, In n names -> exists l col, dict_find prior n = Some l /\ In (n, col) picked /\ Forall2 (fun i x => nth_error l i = Some x) selected col).
    { clear -Fs Hn Cn. induction names as [|n names IH]; [exists []; split; [reflexivity|intros n []]|].
      destruct IH as (picked & Ep & Hp); [intros m I; apply Hn; right; exact I|]. cbn [select_prior_samples].
      destruct (Hn n (or_introl eq_refl)) as [I Nn]. destruct (Cn n I Nn) as (l & El & Cl). rewrite El.
      destruct (take_rows_spec l selected) as (t & Et & Rt).
      - eapply Forall_impl; [|exact Fs]. intros i Hi. rewrite (Forall2_length _ _ _ Cl). exact Hi.
      - rewrite Et, Ep. cbn [bind]. eexists. split; [reflexivity|]. intros m [->|J].
        + exists l, t. split; [exact El|]. split; [left; reflexivity|exact Rt].
        + destruct (Hp m J) as (l2 & c2 & E2 & I2 & R2). exists l2, c2. split; [exact E2|]. split; [right; exact I2|exact R2]. }
    destruct Sel as (picked & Ep & Hp). exists picked. split; [reflexivity|]. split; [exact Ep|]. split; [exact (Forall2_length _ _ _ Cp)|]. split.
    + intros i run Ei. destruct (Forall2_nth _ _ _ _ _ Cp Ei) as (y & Ey & Hy). rewrite Ey, Hy. reflexivity.
    + intros k i run n Ek Ei In0. destruct (Hp n In0) as (l & col & El & Ic & R). exists col. split; [exact Ic|]. split; [symmetry; exact (Forall2_length _ _ _ R)|].
      destruct (Hn n In0) as [I Nn]. destruct (Cn n I Nn) as (l2 & El2 & Cl). rewrite El in El2. injection El2 as <-.
      assert (R2 : Forall2 (fun x i => nth_error l i = Some x) col selected) by (clear -R; induction R; constructor; assumption).
      destruct (Forall2_nth _ _ _ _ _ R2 Ek) as (x & Ex & Hx). destruct (Forall2_nth _ _ _ _ _ Cl Ei) as (y & Ey & Hy). rewrite Ex, Hy. congruence.
Qed.
(** A selection that asks for a row that was not drawn raises IndexError. *)
Theorem C62_rows_outside selected prior n names (l : list V) : dict_find prior n = Some l ->
  Exists (fun i => (List.length l <= i)%nat) selected -> select_prior_samples selected prior (n :: names) = Err IndexError.
Proof.
  intros E H. cbn [select_prior_samples]. rewrite E.
  assert (T : take_rows l selected = Err IndexError); [|now rewrite T].
  induction selected as [|i r IH]; [inversion H|]. cbn [take_rows]. destruct (nth_error l i) as [x|] eqn:Q; [|reflexivity].
  inversion H as [? ? A|? ? A]; subst; [apply nth_error_None in A; congruence|]. now rewrite IH.
Qed.
End DrawProofs.
(** The limits of the boxes are those of the family with its initial values, in the order of the initial values. *)
Theorem C62_box_supports f :
  supports (Fam f) = params_support f (map fst (init_vals f)) (option_map Fin (lookup "N" (init_vals f))) /\
  List.length (supports (Fam f)) = List.length (init_vals f).
Proof. destruct f; split; reflexivity. Qed.
Example rows_example : exists p d, get_prior_pp_samples [txt "mu"; txt "y"] [[1; 10]; [2; 20]; [3; 30]]%nat = Ok (p, d) /\ p = [10; 20; 30]%nat /\
  select_prior_samples [2; 0]%nat d [txt "mu"] = Ok [(txt "mu", [3; 1]%nat)].
Proof. eexists. eexists. split; [vm_compute; reflexivity|]. split; vm_compute; reflexivity. Qed.
(** A name returned twice breaks the rows: its samples are twice as many as the predictions. *)
Theorem C62_repeated_name_refuted : exists p d l, get_prior_pp_samples [txt "mu"; txt "mu"; txt "y"] [[1; 1; 10]; [2; 2; 20]]%nat = Ok (p, d) /\
  dict_find d (txt "mu") = Some l /\ l = [1; 1; 2; 2]%nat /\ p = [10; 20]%nat.
Proof. eexists. eexists. eexists. split; [vm_compute; reflexivity|]. repeat split; vm_compute; reflexivity. Qed.
(** A prior that the function does not return is read, but has no samples: making a selection raises KeyError, whatever is selected. *)
Theorem C62_unreturned_prior_refuted : exists source vs model, from_preliz source = Ok (vs, model) /\ List.length vs = 2%nat /\
  forall (runs : list (list nat)) selected p d, Forall (fun run => List.length run = 2%nat) runs ->
    get_prior_pp_samples vs runs = Ok (p, d) -> Forall (fun i => (i < List.length runs)%nat) selected -> select_prior_samples selected d (map fst model) = Err KeyError.
Proof.
  exists (txt "def a_model():
    mu = pz.Normal(0, 10).rvs()
    sigma = pz.HalfNormal(10).rvs()
    y = pz.Normal(mu, sigma).rvs(100)
    return mu, y
"), [txt "mu"; txt "y"], [(txt "mu", Fam Normal); (txt "sigma", Fam HalfNormal)]. split; [vm_compute; reflexivity|]. split; [reflexivity|].
  intros runs selected p d F E Fs. unfold get_prior_pp_samples in E. cbn [rev app removelast fold_left dict_put] in E.
  destruct (@runs_loop_spec nat [txt "mu"; txt "y"] (txt "y")) with (todo := runs) (done := @nil (list nat)) (pp := @nil nat) (prior := [(txt "mu", @nil nat)]) as (pp & prior & E2 & _ & Cn & Out).
  - repeat constructor; cbv; intuition discriminate.
  - right. left. reflexivity.
  - exact F.
  - constructor.
  - intros n [<-|[<-|[]]] Nn; [exists []; split; [reflexivity|constructor]|congruence].
  - intros n I. unfold dict_find. rewrite text_eqb_neq; [reflexivity|]. intros ->. apply I. left. reflexivity.
  - assert (Es : (p, d) = (pp, prior)) by (assert (Q : Ok (p, d) = Ok (pp, prior)) by (rewrite <- E, <- E2; reflexivity); injection Q as -> ->; reflexivity).
    injection Es as -> ->. cbn [map fst select_prior_samples].
    destruct (Cn (txt "mu") (or_introl eq_refl)) as (l & El & Cl); [discriminate|]. rewrite El. cbn [app] in Cl.
    destruct (take_rows_spec l selected) as (t & Et & _); [eapply Forall_impl; [|exact Fs]; intros i Hi; rewrite (Forall2_length _ _ _ Cl); exact Hi|].
    rewrite Et. cbn [bind]. rewrite Out; [reflexivity|]. cbv. intuition discriminate.
Qed.
Print Assumptions C62_priors_read.
Print Assumptions C62_boxes.
Print Assumptions C62_bambi_refuted.
Print Assumptions C62_limits_positive.
Print Assumptions C62_rows.
Print Assumptions C62_rows_outside.
Print Assumptions C62_box_supports.
Print Assumptions C62_no_initial_values_refuted.
