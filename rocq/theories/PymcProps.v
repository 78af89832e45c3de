(** C59: conversions from and to PyMC keep the distribution. *)
From Coq Require Import List Bool String Reals Lra Arith Lia.
From Verif Require Import Base RLists XR FamModel FamSpec FamProofs FamProps BoundModel CatModel CatProps PymcModel PymcSpec.
Import ListNotations.
Open Scope R_scope.
Open Scope string_scope.

Lemma nan_to_none_num : forall (v : values) k, (forall k, v k <> Some NaN) -> nan_to_none (num (v k)) = v k.
Proof. intros v k H. specialize (H k). destruct (v k) as [[| | |]|]; try reflexivity. congruence. Qed.

(** Constructors only look at the names in their signature. *)
Lemma construct_ext : forall ptd f (a b : args), (forall k, In k (signature f) -> a k = b k) -> construct ptd f a = construct ptd f b.
Proof.
  intros ptd f a b H.
  destruct f; cbn [construct]; unfold plain1, plain2, plain3;
  repeat match goal with |- context [a ?k] => rewrite (H k) by (cbn; tauto) end; reflexivity.
Qed.

Lemma keywords_ok : forall ptd f kw (b : args),
  forallb (fun p => existsb (String.eqb (fst p)) (signature f)) kw = true ->
  (forall k, In k (signature f) -> flat (assoc k kw) = b k) ->
  call_keywords ptd f kw = construct ptd f b.
Proof. intros ptd f kw b A B. unfold call_keywords. rewrite A. now apply construct_ext. Qed.
Lemma positional_ok : forall ptd f vals (b : args), (List.length vals <= List.length (signature f))%nat ->
  (forall k, In k (signature f) -> flat (assoc k (combine (signature f) vals)) = b k) ->
  call_positional ptd f vals = construct ptd f b.
Proof.
  intros ptd f vals b A B. unfold call_positional. destruct (Nat.ltb_spec (List.length (signature f)) (List.length vals)); [lia|].
  now apply construct_ext.
Qed.

Lemma numbers_map : forall l, numbers (map Num l) = l.
Proof. induction l; cbn; [reflexivity|now rewrite IHl]. Qed.

Lemma family_of_name : forall f, family_of (family_name f) = Some f.
Proof. destruct f; reflexivity. Qed.

Ltac each_name := cbn [signature In]; intros k Hk;
  repeat (destruct Hk as [<-|Hk]; [cbn|]); [..|destruct Hk].

Lemma inverse_inverse : forall r, r <> 0 -> pydiv (Fin 1) (xdiv (Fin 1) (Fin r)) = Ok (Fin r).
Proof.
  intros r H. cbn. destruct (Reqb_spec r 0) as [|N]; [contradiction|]. cbn.
  destruct (Reqb_spec (1 / r) 0) as [E|N2].
  - exfalso. apply (Rinv_neq_0_compat r N). unfold Rdiv in E. lra.
  - cbn. f_equal. f_equal. field. auto.
Qed.

(** What _reparametrize makes of the inputs PyMC builds for a family is the distribution with the same parameters. *)
Lemma reparametrize_layout : forall ptd f v, convertible f = true -> sensible f v ->
  reparametrize ptd f (layout f v) = construct ptd f (given f v).
Proof.
  intros ptd f v C [NN S].
  assert (Q : forall k, nan_to_none (num (v k)) = v k) by (intro; now apply nan_to_none_num).
  destruct f; try discriminate C; cbn [layout reparametrize map canonical sets hd]; try rewrite !Q;
  try (apply positional_ok; [cbn; lia|]; each_name; reflexivity);
  try (apply keywords_ok; [reflexivity|]; each_name; reflexivity).
  - (* Exponential *)
    destruct (v "lam") as [x|] eqn:E.
    + destruct (S x eq_refl) as [r [-> R0]]. cbn [num].
      replace (nan_to_none (xdiv (Fin 1) (Fin r))) with (Some (xdiv (Fin 1) (Fin r))).
      2:{ cbn. destruct (Reqb_spec r 0); [contradiction|reflexivity]. }
      unfold inverse. rewrite inverse_inverse by exact R0. cbn [bind].
      apply positional_ok; [cbn; lia|]. each_name; [now rewrite E|reflexivity].
    + cbn [num xdiv nan_to_none xisnan inverse bind]. apply positional_ok; [cbn; lia|]. each_name; [now rewrite E|reflexivity].
  - (* Gamma *)
    destruct (v "beta") as [x|] eqn:E.
    + destruct (S x eq_refl) as [r [-> R0]]. cbn [num].
      replace (nan_to_none (xdiv (Fin 1) (Fin r))) with (Some (xdiv (Fin 1) (Fin r))).
      2:{ cbn. destruct (Reqb_spec r 0); [contradiction|reflexivity]. }
      unfold inverse. rewrite inverse_inverse by exact R0. cbn [bind].
      apply keywords_ok; [reflexivity|]. each_name; try reflexivity. now rewrite E.
    + cbn [num xdiv nan_to_none xisnan inverse bind]. apply keywords_ok; [reflexivity|]. each_name; try reflexivity. now rewrite E.
  - (* NegativeBinomial *)
    destruct (v "mu") as [x|] eqn:E.
    + destruct S as (m & a & Em & Ea & A0 & M0); [discriminate|]. injection Em as ->. rewrite Ea. cbn [num xadd xdiv].
      destruct (Reqb_spec (m + a) 0); [contradiction|]. cbn [nan_to_none xisnan xsub xadd xneg xmul pydiv].
      destruct (Reqb_spec (a / (m + a)) 0) as [Z|Z].
      { exfalso. assert (a = a / (m + a) * (m + a)) by (field; auto). rewrite Z in H. lra. }
      cbn [xdiv bind]. destruct (Reqb_spec (a / (m + a)) 0); [contradiction|]. cbn [bind].
      apply keywords_ok; [reflexivity|]. each_name; try reflexivity; [|now rewrite Ea].
      rewrite E. do 2 f_equal. field. auto.
    + destruct (v "alpha") as [[| | |]|] eqn:Ea; cbn [num xdiv xadd nan_to_none xisnan bind];
      (apply keywords_ok; [reflexivity|]; each_name; try reflexivity; now rewrite ?E, ?Ea).
  - (* Rice *)
    apply keywords_ok; [reflexivity|]. each_name; try reflexivity.
    destruct (v "nu") as [x|] eqn:E.
    + destruct S as [[r Er] [s [Es S0]]]; [discriminate|]. injection Er as ->. rewrite Es. cbn [num xdiv].
      destruct (Reqb_spec s 0); [contradiction|]. cbn. do 2 f_equal. field. auto.
    + cbn. destruct (v "sigma") as [[| | |]|]; reflexivity.
  - (* HyperGeometric *)
    apply keywords_ok; [reflexivity|]. each_name; try reflexivity.
    destruct (v "N") as [x|] eqn:E.
    + destruct S as [[r Er] [s Es]]; [discriminate|]. injection Er as ->. rewrite Es. cbn. do 2 f_equal. lra.
    + cbn. destruct (v "k") as [[| | |]|]; reflexivity.
Qed.

(** A PyMC variable of a family becomes the PreliZ distribution of that family with the same canonical parameters; those
    given as nan are left unset, and nothing else is set. *)
Theorem C59_from_pymc : forall ptd f v, convertible f = true -> sensible f v ->
  from_pymc ptd (pymc_node f v) = do d <- construct ptd f (given f v); Ok (PzFam f d).
Proof.
  intros ptd f v C S. rewrite <- (reparametrize_layout ptd f v C S).
  assert (P : from_pymc ptd (pymc_node f v) = plain ptd (family_name f) (leading f ++ map Num (layout f v))).
  { destruct f; try discriminate C; reflexivity. }
  rewrite P. unfold plain. rewrite family_of_name.
  assert (L : numbers (if (family_name f =? "HalfNormal")%string then skipn 3 (leading f ++ map Num (layout f v))
              else if (family_name f =? "LogitNormal")%string then skipn 1 (leading f ++ map Num (layout f v))
              else skipn 2 (leading f ++ map Num (layout f v))) = layout f v).
  { destruct f; try discriminate C; cbn [family_name leading String.eqb Ascii.eqb Bool.eqb skipn app]; apply numbers_map. }
  now rewrite L.
Qed.
Example C59_applies : sensible Gamma (fun k => if String.eqb k "alpha" then Some (Fin 2) else None) /\
  sensible NegativeBinomial (fun k => if String.eqb k "mu" then Some (Fin 5) else if String.eqb k "alpha" then Some (Fin 2) else None).
Proof.
  split; (split; [intros k; cbn; repeat destruct (String.eqb k _); congruence|]).
  - intros x Hx. cbn in Hx. discriminate.
  - intros _. exists 5, 2. repeat split; try reflexivity; lra.
Qed.

(** For three families PyMC mixes two parameters in one input, so a known parameter is lost when the other one is open:
    from pm.NegativeBinomial.dist(mu=5, alpha=nan) nothing of mu is left. *)
Theorem C59_mixed_inputs_refuted : forall ptd m,
  let v := fun k => if String.eqb k "mu" then Some (Fin m) else None in
  from_pymc ptd (pymc_node NegativeBinomial v) = from_pymc ptd (pymc_node NegativeBinomial (fun _ => None)) /\
  from_pymc ptd (pymc_node NegativeBinomial v) <> (do d <- construct ptd NegativeBinomial (given NegativeBinomial v); Ok (PzFam NegativeBinomial d)).
Proof.
  intros ptd m v. split; [reflexivity|]. unfold v. cbn. intro H. injection H as H.
  assert (E : None = Some (Fin m)); [|discriminate].
  exact (f_equal (fun g => g "mu") H).
Qed.

(** The five ways of wrapping. *)
Theorem C59_censored : forall ptd base lower upper,
  from_pymc ptd (Node "Censored" [Sub base; Num lower; Num upper]) =
  do b <- from_pymc ptd base; Ok (PzCensored b (if xisnan lower then NInf else lower) (if xisnan upper then PInf else upper)).
Proof. intros. reflexivity. Qed.

Lemma all_numbers_map : forall l, all_numbers (map Num l) = Ok l.
Proof. induction l as [|a l IH]; cbn; [reflexivity|]. now rewrite IH. Qed.
Lemma from_end_app : forall l a b, from_end (l ++ [a; b])%list 2 = Ok a /\ from_end (l ++ [a; b])%list 1 = Ok b.
Proof. intros. unfold from_end, at_. rewrite rev_app_distr. split; reflexivity. Qed.
Lemma drop_end_app : forall l a b, drop_end 2 (l ++ [a; b])%list = l.
Proof. intros. unfold drop_end. rewrite app_length. cbn. replace (List.length l + 2 - 2)%nat with (List.length l) by lia.
  rewrite firstn_app, Nat.sub_diag. cbn. rewrite app_nil_r. apply firstn_all.
Qed.

Theorem C59_truncated : forall ptd f v lower upper, convertible f = true -> sensible f v ->
  f <> HalfNormal -> f <> LogitNormal -> f <> Normal ->
  from_pymc ptd (Node ("Truncated" ++ family_name f) ([Skip; Skip] ++ map Num (layout f v) ++ [Num lower; Num upper])) =
  do d <- construct ptd f (given f v);
  Ok (PzTruncated (PzFam f d) (if xisnan lower then NInf else lower) (if xisnan upper then PInf else upper)).
Proof.
  intros ptd f v lower upper C S N1 N2 N3. rewrite <- (reparametrize_layout ptd f v C S).
  set (ins := ([Skip; Skip] ++ map Num (layout f v) ++ [Num lower; Num upper])%list).
  assert (P : from_pymc ptd (Node ("Truncated" ++ family_name f) ins) =
    (do base_params <- all_numbers (drop_end 2 (skipn 2 ins));
          do l <- from_end ins 2; do lower <- number l; do u <- from_end ins 1; do upper <- number u;
          match family_of (family_name f) with
          | None => Err AttributeError
          | Some f => do d <- reparametrize ptd f base_params;
                      Ok (PzTruncated (PzFam f d) (or_default lower NInf) (or_default upper PInf))
          end)).
  { destruct f; try discriminate C; try congruence; reflexivity. }
  rewrite P, family_of_name. unfold ins. cbn [app skipn]. rewrite drop_end_app, all_numbers_map. cbn [bind].
  change (Skip :: Skip :: map Num (layout f v) ++ [Num lower; Num upper])%list with
    ((Skip :: Skip :: map Num (layout f v)) ++ [Num lower; Num upper])%list.
  destruct (from_end_app (Skip :: Skip :: map Num (layout f v)) (Num lower) (Num upper)) as [A B].
  rewrite A, B. reflexivity.
Qed.
Example C59_truncated_applies : convertible Laplace = true /\ sensible Laplace (fun _ => None).
Proof. split; [reflexivity|]. split; [discriminate|exact I]. Qed.

(** The extra input of HalfNormal is skipped for the variable itself but not for its truncation: with sigma known,
    from_pymc of a truncated half-normal variable raises. *)
Theorem C59_truncated_halfnormal_refuted : forall ptd s lower upper,
  let v := fun k => if String.eqb k "sigma" then Some (Fin s) else None in
  from_pymc ptd (Node "TruncatedHalfNormal" (leading HalfNormal ++ map Num (layout HalfNormal v) ++ [Num lower; Num upper])) = Err ValueError.
Proof. intros. reflexivity. Qed.

(** Zero-inflated variables: a mixture of a point mass with the base, the second weight is psi. *)
Definition zi_base (f : family) : option family :=
  match f with
  | ZeroInflatedBinomial => Some Binomial | ZeroInflatedNegativeBinomial => Some NegativeBinomial
  | ZeroInflatedPoisson => Some Poisson | _ => None
  end.
Lemma zero_inflated_call : forall ptd f b ps psi w0 rest, zi_base f = Some b ->
  from_pymc ptd (Node "Mixture" [Skip; Vec (w0 :: psi :: rest); Sub (Node "DiracDelta" []); Sub (Node (family_name b) (Skip :: Skip :: map Num ps))]) =
  do qs <- match f with
           | ZeroInflatedNegativeBinomial => match ps with
                                             | [n; p] => Ok [xdiv (xmul n (xsub (Fin 1) p)) p; n]
                                             | _ => Err ValueError end
           | _ => Ok ps end;
  do d <- call_positional ptd f (nan_to_none psi :: map nan_to_none qs); Ok (PzFam f d).
Proof.
  intros ptd f b ps psi w0 rest Z.
  destruct f; try discriminate Z; injection Z as <-; cbn -[call_positional nan_to_none xdiv xmul xsub]; rewrite all_numbers_map; reflexivity.
Qed.
Theorem C59_zero_inflated : forall ptd f b v w0 rest, zi_base f = Some b -> sensible b v ->
  from_pymc ptd (Node "Mixture" [Skip; Vec (w0 :: num (v "psi") :: rest); Sub (Node "DiracDelta" []); Sub (pymc_node b v)]) =
  do d <- construct ptd f (given f v); Ok (PzFam f d).
Proof.
  intros ptd f b v w0 rest Z [NN S]. assert (Q : forall k, nan_to_none (num (v k)) = v k) by (intro; now apply nan_to_none_num).
  assert (P : pymc_node b v = Node (family_name b) (Skip :: Skip :: map Num (layout b v))).
  { destruct f; try discriminate Z; injection Z as <-; reflexivity. }
  rewrite P, (zero_inflated_call ptd f b) by exact Z.
  destruct f; try discriminate Z; injection Z as <-; cbn [layout map bind canonical sets hd]; rewrite !Q.
  - assert (X : nan_to_none (xdiv (xmul (num (v "alpha")) (xsub (Fin 1) (xdiv (num (v "alpha")) (xadd (num (v "mu")) (num (v "alpha"))))))
                 (xdiv (num (v "alpha")) (xadd (num (v "mu")) (num (v "alpha"))))) = v "mu").
    { cbn in S. destruct (v "mu") as [x|] eqn:E.
      - destruct S as (m & a & Em & Ea & A0 & M0); [discriminate|]. injection Em as ->. rewrite Ea. cbn [num xadd xdiv].
        destruct (Reqb_spec (m + a) 0); [contradiction|]. cbn [xsub xadd xneg xmul xdiv].
        destruct (Reqb_spec (a / (m + a)) 0) as [ZZ|ZZ].
        { exfalso. assert (H : a = a / (m + a) * (m + a)) by (field; auto). rewrite ZZ in H. lra. }
        cbn. do 2 f_equal. field. auto.
      - cbn. destruct (v "alpha") as [[| | |]|]; reflexivity. }
    rewrite X.
    rewrite (positional_ok ptd ZeroInflatedNegativeBinomial _ (given ZeroInflatedNegativeBinomial v)); [reflexivity|cbn; lia|].
    each_name; reflexivity.
  - rewrite (positional_ok ptd ZeroInflatedBinomial _ (given ZeroInflatedBinomial v)); [reflexivity|cbn; lia|]. each_name; reflexivity.
  - rewrite (positional_ok ptd ZeroInflatedPoisson _ (given ZeroInflatedPoisson v)); [reflexivity|cbn; lia|]. each_name; reflexivity.
Qed.

(** A distribution with all its parameters: those of what is modified, psi, and those of the components. *)
Inductive complete : pz -> Prop :=
| complete_fam f d : frozen d = true -> complete (PzFam f d)
| complete_truncated x lo up : complete x -> complete (PzTruncated x lo up)
| complete_censored x lo up : complete x -> complete (PzCensored x lo up)
| complete_hurdle x psi : complete x -> complete (PzHurdle x (Some psi))
| complete_mixture xs ws : Forall complete xs -> complete (PzMixture xs ws).
Fixpoint frozen_complete (x : pz) : pz_frozen x = true <-> complete x.
Proof.
  destruct x as [f d|x lo up|x lo up|x psi|xs ws]; cbn [pz_frozen].
  - split; [intro H; constructor; exact H|intro H; inversion H; assumption].
  - rewrite (frozen_complete x). split; [intro H; constructor; exact H|intro H; inversion H; assumption].
  - rewrite (frozen_complete x). split; [intro H; constructor; exact H|intro H; inversion H; assumption].
  - rewrite andb_true_iff, (frozen_complete x). destruct psi; split; intro H; try (destruct H; discriminate); try (inversion H; fail).
    + constructor. apply H.
    + inversion H. auto.
  - assert (Q : forallb pz_frozen xs = true <-> Forall complete xs).
    { induction xs as [|x xs IH]; cbn [forallb]; [split; [constructor|reflexivity]|].
      rewrite andb_true_iff, (frozen_complete x), IH. split; [intros [A B]; constructor; assumption|intro H; inversion H; auto]. }
    rewrite Q. split; [intro H; constructor; exact H|intro H; inversion H; assumption].
Qed.

(** Mixtures keep their components and weights, in order. If a weight is not known although all the components are, there is a TypeError. *)
Theorem C59_mixture : forall ptd ws n0 ns xs,
  String.eqb (match n0 with Node s _ => s end) "DiracDelta" = false ->
  map_res (from_pymc ptd) (n0 :: ns) = Ok xs ->
  let r := from_pymc ptd (Node "Mixture" (Skip :: Vec ws :: map Sub (n0 :: ns))) in
  (~ In NaN ws \/ Exists (fun x => ~ complete x) xs -> r = Ok (PzMixture xs (map nan_to_none ws))) /\
  (In NaN ws -> Forall complete xs -> r = Err TypeError).
Proof.
  intros ptd ws n0 ns xs H M.
  assert (G : forall l ys, map_res (from_pymc ptd) l = Ok ys ->
    (fix go l := match l with
                 | [] => Ok []
                 | i :: r => do x <- (match i with Sub n => from_pymc ptd n | _ => Err AttributeError end); do xs <- go r; Ok (x :: xs)
                 end) (map Sub l) = Ok ys).
  { induction l as [|a l IH]; intros ys E; cbn [map_res] in E.
    - injection E as <-. reflexivity.
    - cbn [map]. destruct (from_pymc ptd a) as [y|e]; [|discriminate]. cbn [bind] in *.
      destruct (map_res (from_pymc ptd) l) as [zs|e]; [|discriminate]. injection E as <-. now rewrite (IH zs eq_refl). }
  specialize (G _ _ M).
  destruct n0 as [s ins]. remember (Node s ins) as n0 eqn:En.
  assert (O : owner (Sub n0) = Ok (s, ins)) by now rewrite En.
  assert (W : existsb (fun w => match w with None => true | Some _ => false end) (map nan_to_none ws) = true <-> In NaN ws).
  { rewrite existsb_exists. split.
    - intros (w & I & E). apply in_map_iff in I. destruct I as (x & X & I). unfold nan_to_none in X. destruct x; cbn in X; subst w; try discriminate. exact I.
    - intro I. exists None. split; [|reflexivity]. apply in_map_iff. exists NaN. auto. }
  intro r. assert (R : r = make_mixture xs (map nan_to_none ws)).
  { unfold r. cbn -[owner make_mixture]. rewrite O. cbn [bind fst]. rewrite H. cbn [map] in G. rewrite G. reflexivity. }
  rewrite R. unfold make_mixture. split.
  - intros [A|A].
    + destruct (existsb _ _); [exfalso; apply A, W; reflexivity|]. rewrite andb_false_r. reflexivity.
    + replace (forallb pz_frozen xs) with false; [reflexivity|]. symmetry. apply not_true_iff_false. rewrite forallb_forall. intro F.
      apply Exists_exists in A. destruct A as (x & I & E). specialize (F x I). apply frozen_complete in F. contradiction.
  - intros I F. apply W in I. rewrite I. replace (forallb pz_frozen xs) with true; [reflexivity|]. symmetry. apply forallb_forall. intros x Hx. apply frozen_complete.
    rewrite Forall_forall in F. exact (F x Hx).
Qed.

(** Hurdle variables: the last weight is psi, the second component the distribution away from zero. *)
Theorem C59_hurdle : forall ptd f v w0 psi zero, convertible f = true -> sensible f v -> f <> HalfNormal -> f <> LogitNormal ->
  f <> TruncatedNormal ->
  from_pymc ptd (Node "Hurdle" [Skip; Vec [w0; num psi]; zero; Sub (pymc_node f v)]) =
  do d <- construct ptd f (given f v); Ok (PzHurdle (PzFam f d) (nan_to_none (num psi))).
Proof.
  intros ptd f v w0 psi zero C S N1 N2 N3. rewrite <- (reparametrize_layout ptd f v C S).
  assert (P : pymc_node f v = Node (family_name f) (Skip :: Skip :: map Num (layout f v))) by (destruct f; try congruence; reflexivity).
  assert (A : after_truncated (family_name f) = None) by (destruct f; try congruence; reflexivity).
  rewrite P. set (n0 := Node (family_name f) (Skip :: Skip :: map Num (layout f v))).
  assert (O : owner (Sub n0) = Ok (family_name f, Skip :: Skip :: map Num (layout f v))) by reflexivity.
  clearbody n0. cbn -[owner after_truncated reparametrize num family_of nan_to_none layout]. rewrite O.
  cbn -[after_truncated reparametrize num family_of nan_to_none layout family_name]. rewrite A, family_of_name, all_numbers_map. reflexivity.
Qed.
Example C59_hurdle_applies : convertible Gamma = true /\ sensible Gamma (fun k => if String.eqb k "beta" then Some (Fin 2) else None).
Proof.
  split; [reflexivity|]. split.
  - intro k. cbn. destruct (String.eqb k "beta"); discriminate.
  - intros x Hx. injection Hx as <-. exists 2. split; [reflexivity|lra].
Qed.

(** The branch drops the word "Truncated" from the name of the base, but not the two bounds from its inputs: whatever the
    parameters, a hurdle whose base is truncated at zero (as PyMC builds them for discrete families) raises. *)
Theorem C59_hurdle_truncated_refuted : forall ptd v w0 psi lower upper zero,
  let hurdle f := from_pymc ptd (Node "Hurdle" [Skip; Vec [w0; psi]; zero;
                    Sub (Node ("Truncated" ++ family_name f) ([Skip; Skip] ++ map Num (layout f v) ++ [Num lower; Num upper]))]) in
  hurdle Poisson = Err TypeError /\ hurdle NegativeBinomial = Err ValueError /\ hurdle Gamma = Err ValueError.
Proof.
  intros. unfold hurdle. repeat split; cbn -[nan_to_none num xdiv xadd]; reflexivity.
Qed.

(** Prior objects: the keywords of the prior are the keywords of the constructor; Truncated, Censored and Hurdle priors wrap
    the distribution of their base. *)
Definition prior_of (name : string) (kw : list (string * xr)) : prior := mkPrior name (map (fun p => (fst p, PNum (snd p))) kw).
Lemma some_numbers_map : forall kw, some_numbers (map (fun p => (fst p, PNum (snd p))) kw) = Ok (map (fun p => (fst p, Some (snd p))) kw).
Proof. induction kw as [|[k x] kw IH]; cbn in *; [reflexivity|]. unfold some_numbers in IH. now rewrite IH. Qed.
Definition named (kw : list (string * xr)) : args := fun k => assoc k kw.
Lemma flat_assoc : forall kw k, flat (assoc k (map (fun p => (fst p, Some (snd p))) kw)) = named kw k.
Proof. unfold named. induction kw as [|[k' x] kw IH]; intro k; cbn; [reflexivity|]. destruct (String.eqb k' k); [reflexivity|apply IH]. Qed.
Lemma keywords_named : forall ptd f kw, (forall p, In p kw -> In (fst p) (signature f)) ->
  call_keywords ptd f (map (fun p => (fst p, Some (snd p))) kw) = construct ptd f (named kw).
Proof.
  intros ptd f kw H. apply keywords_ok; [|intros k _; apply flat_assoc].
  apply forallb_forall. intros p Hp. apply in_map_iff in Hp. destruct Hp as [q [<- Hq]]. cbn.
  apply existsb_exists. exists (fst q). split; [now apply H|apply String.eqb_refl].
Qed.
Theorem C59_from_prior : forall ptd f kw, (forall p, In p kw -> In (fst p) (signature f)) ->
  from_prior ptd (prior_of (family_name f) kw) = do d <- construct ptd f (named kw); Ok (PzFam f d).
Proof.
  intros ptd f kw H. unfold prior_of. cbn [from_prior].
  assert (A : String.eqb (family_name f) "Truncated" || String.eqb (family_name f) "Censored" = false) by (destruct f; reflexivity).
  assert (B : String.prefix "Hurdle" (family_name f) = false) by (destruct f; reflexivity).
  assert (M : String.eqb (family_name f) "Mixture" = false) by (destruct f; reflexivity).
  rewrite A, B, M, family_of_name, some_numbers_map. cbn [bind]. now rewrite keywords_named.
Qed.
Theorem C59_from_prior_unknown_name : forall ptd f kw p, In p kw -> ~ In (fst p) (signature f) ->
  from_prior ptd (prior_of (family_name f) kw) = Err TypeError.
Proof.
  intros ptd f kw p Hp N. unfold prior_of. cbn [from_prior].
  assert (A : String.eqb (family_name f) "Truncated" || String.eqb (family_name f) "Censored" = false) by (destruct f; reflexivity).
  assert (B : String.prefix "Hurdle" (family_name f) = false) by (destruct f; reflexivity).
  assert (M : String.eqb (family_name f) "Mixture" = false) by (destruct f; reflexivity).
  rewrite A, B, M, family_of_name, some_numbers_map. cbn [bind]. unfold call_keywords.
  match goal with |- context [if ?b then _ else _] => destruct b eqn:E end; [|reflexivity].
  exfalso. apply N. rewrite forallb_forall in E. specialize (E (fst p, Some (snd p))).
  assert (I : In (fst p, Some (snd p)) (map (fun p => (fst p, Some (snd p))) kw)) by (apply in_map_iff; now exists p).
  specialize (E I). apply existsb_exists in E. destruct E as [k [K1 K2]]. apply String.eqb_eq in K2. cbn in K2. now subst k.
Qed.
Definition bound_kw (name : string) (b : option xr) : list (string * pvalue) := match b with Some x => [(name, PNum x)] | None => [] end.
Theorem C59_from_prior_bounded : forall ptd f kw lower upper, (forall p, In p kw -> In (fst p) (signature f)) ->
  let kws := (("dist", PDist (family_name f) kw) :: bound_kw "lower" lower ++ bound_kw "upper" upper)%list in
  let lo := match lower with Some x => x | None => NInf end in
  let up := match upper with Some x => x | None => PInf end in
  from_prior ptd (mkPrior "Truncated" kws) = (do d <- construct ptd f (named kw); Ok (PzTruncated (PzFam f d) lo up)) /\
  from_prior ptd (mkPrior "Censored" kws) = (do d <- construct ptd f (named kw); Ok (PzCensored (PzFam f d) lo up)).
Proof.
  intros ptd f kw lower upper H kws lo up. cbn [from_prior].
  assert (D : assoc "dist" kws = Some (PDist (family_name f) kw)) by reflexivity.
  assert (L : get_number "lower" kws = Ok lower) by (unfold kws; destruct lower, upper; reflexivity).
  assert (U : get_number "upper" kws = Ok upper) by (unfold kws; destruct lower, upper; reflexivity).
  cbn -[get_number assoc family_of]. rewrite D, family_of_name, L, U, keywords_named by exact H.
  split; destruct (construct ptd f (named kw)); reflexivity.
Qed.
Theorem C59_from_prior_hurdle : forall ptd f kw psi, (forall p, In p kw -> In (fst p) (signature f)) -> zi_base f = None ->
  from_prior ptd (mkPrior ("Hurdle" ++ family_name f) (("psi", PNum psi) :: map (fun p => (fst p, PNum (snd p))) kw)) =
  do d <- construct ptd f (named kw); Ok (PzHurdle (PzFam f d) (Some psi)).
Proof.
  intros ptd f kw psi H Z. cbn [from_prior].
  assert (A : String.eqb ("Hurdle" ++ family_name f) "Truncated" || String.eqb ("Hurdle" ++ family_name f) "Censored" = false) by (destruct f; reflexivity).
  assert (B : String.prefix "Hurdle" ("Hurdle" ++ family_name f) = true) by (destruct f; reflexivity).
  assert (N : substring 6 (String.length ("Hurdle" ++ family_name f) - 6) ("Hurdle" ++ family_name f) = family_name f) by (destruct f; reflexivity).
  rewrite A, B, N, family_of_name. cbn [filter fst negb String.eqb Ascii.eqb Bool.eqb].
  assert (F : filter (fun p => negb (String.eqb (fst p) "psi")) (map (fun p : string * xr => (fst p, PNum (snd p))) kw) = map (fun p => (fst p, PNum (snd p))) kw).
  { assert (Q : ~ In "psi" (signature f)).
    { intro I. destruct f; try discriminate Z; cbn in I; repeat (destruct I as [I|I]; [discriminate|]); exact I. }
    clear - H Q. induction kw as [|p kw IH]; [reflexivity|]. cbn.
    destruct (String.eqb (fst p) "psi") eqn:E.
    - exfalso. apply Q. apply String.eqb_eq in E. rewrite <- E. apply H. now left.
    - cbn. f_equal. apply IH. intros q Hq. apply H. now right. }
  rewrite F, some_numbers_map. cbn [bind]. rewrite keywords_named by exact H.
  destruct (construct ptd f (named kw)); reflexivity.
Qed.
Example C59_from_prior_applies : forall p, In p [("mu", Fin 2); ("sigma", Fin 1)] -> In (fst p) (signature Gamma).
Proof. intros p [<-|[<-|[]]]; cbn; tauto. Qed.

(* ------------------------------------------------------------ to PyMC *)
(** A distribution with parameters is handed to the PyMC class of the same name, each current parameter under its own name
    and with its current value, inside a model or not; one without parameters raises. *)
Theorem C59_to_pymc : forall ptd pm context f a d0 us d, In (family_name f) pm ->
  construct ptd f a = Ok d0 -> updates f d0 us = Ok d ->
  to_pymc pm context (PzFam f d) =
    if frozen d then Ok (PmPlain (family_name f) (map (fun k => (k, attr d k)) (names d))) else Err TypeError.
Proof.
  intros ptd pm context f a d0 us d Hpm H0 Hu. cbn [to_pymc].
  assert (C : has_class pm (family_name f) = true) by (apply existsb_exists; exists (family_name f); split; [exact Hpm|apply String.eqb_refl]).
  rewrite C. cbn [negb]. unfold kwargs_of. cbn [params_dict_of]. rewrite (C55_params_dict ptd f a d0 us d H0 Hu).
  destruct (frozen d); reflexivity.
Qed.
Theorem C59_to_pymc_unknown : forall pm context f d, ~ In (family_name f) pm -> to_pymc pm context (PzFam f d) = Err AttributeError.
Proof.
  intros pm context f d H. cbn [to_pymc].
  assert (C : has_class pm (family_name f) = false).
  { destruct (has_class pm (family_name f)) eqn:E; [|reflexivity]. apply existsb_exists in E. destruct E as [x [X Y]].
    apply String.eqb_eq in Y. subst x. contradiction. }
  now rewrite C.
Qed.
Lemma has_class_in : forall pm n, In n pm -> has_class pm n = true.
Proof. intros pm n H. apply existsb_exists. exists n. split; [exact H|apply String.eqb_refl]. Qed.

(** There and back: the PyMC variable built with the keywords of to_pymc is converted back to the same distribution. *)
Lemma given_just : forall ptd f v (w : values), (forall k, In k (canonical f) -> w k = Some (Fin (v k))) ->
  construct ptd f (given f w) = construct ptd f (just (canonical f) v).
Proof.
  intros ptd f v w H. apply construct_ext. intros k _. unfold given, just.
  destruct (existsb (String.eqb k) (canonical f)) eqn:E; [|reflexivity]. apply existsb_exists in E. destruct E as [x [X Y]].
  apply String.eqb_eq in Y. subst x. now apply H.
Qed.
Theorem C59_round_trip : forall ptd pm context f v, ig_formula ptd -> convertible f = true -> In (family_name f) pm ->
  valid f (canonical f) v -> (forall k, In k (canonical f) -> readback f k (v k) = v k) ->
  exists d kw, construct ptd f (just (canonical f) v) = Ok d /\
    to_pymc pm context (PzFam f d) = Ok (PmPlain (family_name f) kw) /\
    from_pymc ptd (pymc_node f (fun k => flat (assoc k kw))) = Ok (PzFam f d).
Proof.
  intros ptd pm context f v Hp C Hpm V I.
  assert (HP : In (canonical f) (sets f)) by (destruct f; cbn; tauto).
  destruct (C08_reads_back ptd f (canonical f) v Hp HP V) as (d & E & F & N & P & _).
  set (kw := map (fun k => (k, Some (Fin (v k)))) (canonical f)).
  exists d, kw. split; [exact E|].
  assert (P' : params d = map (fun k => Some (Fin (v k))) (canonical f)).
  { rewrite P. apply map_ext_in. intros k Hk. now rewrite I. }
  split.
  - cbn [to_pymc]. rewrite has_class_in by exact Hpm. cbn [negb]. unfold kwargs_of, params_dict_of, params_dict. rewrite F, N, P'.
    cbn [bind]. unfold kw. now rewrite combine_map.
  - assert (W : forall k, In k (canonical f) -> flat (assoc k kw) = Some (Fin (v k))).
    { intros k Hk. unfold kw. clear - Hk. induction (canonical f) as [|c l IH]; [destruct Hk|]. cbn.
      destruct (String.eqb c k) eqn:Q; [apply String.eqb_eq in Q; now subst c|].
      destruct Hk as [->|Hk]; [rewrite String.eqb_refl in Q; discriminate|now apply IH]. }
    rewrite C59_from_pymc; [|exact C|].
    + rewrite (given_just ptd f v _ W), E. reflexivity.
    + split.
      * intro k. unfold kw. clear. induction (canonical f) as [|c l IH]; cbn; [discriminate|].
        destruct (String.eqb c k); [discriminate|exact IH].
      * destruct f; try exact Logic.I; cbn in V.
        all: try (intros x Hx; rewrite W in Hx by (cbn; tauto); injection Hx as <-; eexists; split; [reflexivity|lra]).
        -- intros _. rewrite !W by (cbn; tauto). exists (v "mu"), (v "alpha"). repeat split; lra.
        -- intros _. rewrite !W by (cbn; tauto). split; [eexists; reflexivity|]. exists (v "sigma"). split; [reflexivity|lra].
        -- intros _. rewrite !W by (cbn; tauto). split; eexists; reflexivity.
Qed.
Example C59_round_trip_applies : valid Gamma (canonical Gamma) (fun _ => 2) /\ forall k, In k (canonical Gamma) -> readback Gamma k 2 = 2.
Proof. split; [cbn; lra|reflexivity]. Qed.

(** Truncated, censored and mixed families: the same call inside a model and outside of one, with the bounds and weights of
    the modifier. *)
Theorem C59_to_pymc_bounded : forall pm context f d kw lower upper, In "Truncated" pm -> In "Censored" pm -> In (family_name f) pm ->
  params_dict d = Some kw ->
  to_pymc pm context (PzTruncated (PzFam f d) lower upper) = Ok (PmBounded "Truncated" (PmPlain (family_name f) kw) lower upper) /\
  to_pymc pm context (PzCensored (PzFam f d) lower upper) = Ok (PmBounded "Censored" (PmPlain (family_name f) kw) lower upper).
Proof.
  intros pm context f d kw lower upper HT HC HF K. cbn [to_pymc]. rewrite !has_class_in by assumption. cbn [negb].
  unfold inner, kwargs_of. cbn [pz_name params_dict_of]. rewrite has_class_in, K by assumption. destruct context; split; reflexivity.
Qed.
(** Mixtures: the components in order, and the weights divided by their sum. *)
Theorem C59_to_pymc_mixture : forall pm context (l : list (family * dist * list (string * option xr))) ws, In "Mixture" pm -> Rsum ws <> 0 ->
  (forall f d kw, In (f, d, kw) l -> In (family_name f) pm /\ params_dict d = Some kw) ->
  to_pymc pm context (PzMixture (map (fun c => PzFam (fst (fst c)) (snd (fst c))) l) (map (fun w => Some (Fin w)) ws)) =
  Ok (PmMixture (map (fun w => Some (Fin (w / Rsum ws))) ws) (map (fun c => PmPlain (family_name (fst (fst c))) (snd c)) l)).
Proof.
  intros pm context l ws HM HW H. cbn [to_pymc]. rewrite has_class_in by exact HM. cbn [negb].
  match goal with |- bind ?e _ = _ => assert (G : e = Ok (map (fun c => PmPlain (family_name (fst (fst c))) (snd c)) l)) end.
  { clear HW. induction l as [|[[f d] kw] l IH]; [reflexivity|]. cbn [map fst snd].
    destruct (H f d kw (or_introl eq_refl)) as [A B].
    assert (S : (if context then inner pm (PzFam f d) else to_pymc pm context (PzFam f d)) = Ok (PmPlain (family_name f) kw)).
    { unfold inner. cbn [to_pymc pz_name]. unfold kwargs_of. cbn [params_dict_of]. rewrite has_class_in, B by exact A. destruct context; reflexivity. }
    rewrite S. cbn [bind]. rewrite IH; [reflexivity|]. intros f' d' kw' I. apply H. now right. }
  rewrite G. cbn [bind]. do 2 f_equal. unfold used_weights.
  replace (forallb pz_frozen (map (fun c : family * dist * list (string * option xr) => PzFam (fst (fst c)) (snd (fst c))) l)) with true.
  - assert (T : fold_right (fun w s => match w with Some x => xadd x s | None => s end) (Fin 0) (map (fun w => Some (Fin w)) ws) = Fin (Rsum ws)).
    { clear. induction ws as [|w ws IH]; [reflexivity|]. cbn [map fold_right]. rewrite IH. reflexivity. }
    rewrite T, map_map. apply map_ext. intro w. cbn. rewrite Reqb_false by exact HW. reflexivity.
  - symmetry. apply forallb_forall. intros x I. apply in_map_iff in I. destruct I as ([[f d] kw] & <- & I). cbn.
    destruct (H f d kw I) as [_ B]. unfold params_dict in B. destruct (frozen d); [reflexivity|discriminate].
Qed.
Example C59_to_pymc_mixture_applies : exists d, construct ig_from_mu_sigma Gamma (just ["alpha"; "beta"] (fun _ => 2)) = Ok d /\
  params_dict d = Some [("alpha", Some (Fin 2)); ("beta", Some (Fin 2))] /\ Rsum [1; 3] <> 0.
Proof. eexists. split; [reflexivity|]. split; [reflexivity|]. unfold Rsum. cbn. lra. Qed.

(** A modifier inside a modifier converts outside of a model, but raises inside of one: to_pymc depends on the context. *)
Theorem C59_to_pymc_context_refuted : forall pm f d kw ws psi lo up,
  ~ In "Hurdle" pm -> In "Mixture" pm -> In "Truncated" pm -> In "Censored" pm -> In (family_name f) pm -> In ("Hurdle" ++ family_name f) pm -> params_dict d = Some kw ->
  let t := PzMixture [PzTruncated (PzFam f d) lo up; PzFam f d] ws in
  let h := PzTruncated (PzHurdle (PzFam f d) psi) lo up in
  (exists r, to_pymc pm false t = Ok r) /\ to_pymc pm true t = Err TypeError /\
  (exists r, to_pymc pm false h = Ok r) /\ to_pymc pm true h = Err AttributeError.
Proof.
  intros pm f d kw ws psi lo up NH HM HT HC HF HH K t h. unfold t, h.
  assert (H0 : has_class pm "Hurdle" = false).
  { destruct (has_class pm "Hurdle") eqn:E; [|reflexivity]. apply existsb_exists in E. destruct E as [x [X Y]]. apply String.eqb_eq in Y. now subst x. }
  cbn [to_pymc]. unfold inner, kwargs_of. cbn [pz_name params_dict_of option_map].
  rewrite H0, K, !has_class_in by assumption. cbn. repeat split; eexists; reflexivity.
Qed.
Example C59_context_applies : exists d, construct ig_from_mu_sigma Gamma (just ["alpha"; "beta"] (fun _ => 2)) = Ok d /\
  params_dict d = Some [("alpha", Some (Fin 2)); ("beta", Some (Fin 2))].
Proof. eexists. split; reflexivity. Qed.

(** to_bambi: the class name and the parameters. *)
Theorem C59_to_bambi : forall ptd f a d0 us d, construct ptd f a = Ok d0 -> updates f d0 us = Ok d ->
  to_bambi (PzFam f d) = if frozen d then Ok (PmPlain (family_name f) (map (fun k => (k, attr d k)) (names d))) else Err TypeError.
Proof.
  intros ptd f a d0 us d H0 Hu. unfold to_bambi, kwargs_of. cbn [params_dict_of pz_name]. rewrite (C55_params_dict ptd f a d0 us d H0 Hu).
  destruct (frozen d); reflexivity.
Qed.
Lemma put_new {A} k (x : A) l : ~ In k (map fst l) -> put k x l = (l ++ [(k, x)])%list.
Proof.
  induction l as [|[k' y] l IH]; intros N; [reflexivity|]. cbn [put app]. replace (String.eqb k' k) with false.
  - rewrite IH; [reflexivity|]. intros I. apply N. right. exact I.
  - symmetry. apply String.eqb_neq. intros ->. apply N. left. reflexivity.
Qed.
Lemma dict_nodup {A} (l : list (string * A)) : NoDup (map fst l) -> dict l = l.
Proof.
  intros N. unfold dict. assert (G : forall acc, NoDup (map fst (acc ++ l)%list) -> fold_left (fun acc p => put (fst p) (snd p) acc) l acc = (acc ++ l)%list).
  { clear N. induction l as [|[k x] l IH]; intros acc N; [rewrite app_nil_r; reflexivity|]. cbn [fold_left fst snd].
    rewrite put_new. { rewrite IH; rewrite <- app_assoc; [reflexivity | exact N]. }
    rewrite map_app in N. cbn [map fst] in N. intros I. apply NoDup_remove_2 in N. apply N. apply in_or_app. left. exact I. }
  apply (G []). exact N.
Qed.
(** The prior of a modified distribution holds the parameters of what is modified and then those of the modifier, if no two have the same name. *)
Theorem C59_to_bambi_modified : forall f d kw lower upper psi, params_dict d = Some kw -> NoDup (map fst kw ++ ["lower"; "upper"; "psi"])%list ->
  to_bambi (PzTruncated (PzFam f d) lower upper) = Ok (PmPlain "Truncated" (kw ++ [("lower", Some lower); ("upper", Some upper)])%list) /\
  to_bambi (PzCensored (PzFam f d) lower upper) = Ok (PmPlain "Censored" (kw ++ [("lower", Some lower); ("upper", Some upper)])%list) /\
  to_bambi (PzHurdle (PzFam f d) psi) = Ok (PmPlain "Hurdle" (kw ++ [("psi", psi)])%list).
Proof.
  intros f d kw lower upper psi E N. unfold to_bambi, kwargs_of. cbn [params_dict_of pz_name]. rewrite E. cbn [option_map].
  pose proof (NoDup_remove_1 (map fst kw) ["upper"; "psi"] "lower" N) as N1. pose proof (NoDup_remove_1 (map fst kw) ["psi"] "upper" N1) as N2.
  rewrite !dict_nodup; [repeat split; reflexivity | |]; rewrite map_app; cbn [map fst]; [exact N2|].
  change ["lower"; "upper"; "psi"] with (["lower"; "upper"] ++ ["psi"])%list in N. rewrite app_assoc in N. apply NoDup_remove_1 in N. rewrite app_nil_r in N. exact N.
Qed.
Example C59_modified_applies : exists d, construct ig_from_mu_sigma Gamma (just ["alpha"; "beta"] (fun _ => 2)) = Ok d /\
  exists kw, params_dict d = Some kw /\ NoDup (map fst kw ++ ["lower"; "upper"; "psi"])%list.
Proof. eexists. split; [reflexivity|]. eexists. split; [reflexivity|]. cbn. repeat (constructor; [cbn; intuition discriminate|]). constructor. Qed.
(** The prior of a modified distribution does not say what is modified: truncations of two families with the same
    parameters give the same prior, and the bounds of a truncated Uniform overwrite those of the Uniform itself. *)
Theorem C59_to_bambi_base_lost_refuted : forall f g d e lower upper psi, params_dict d = params_dict e ->
  to_bambi (PzTruncated (PzFam f d) lower upper) = to_bambi (PzTruncated (PzFam g e) lower upper) /\
  to_bambi (PzCensored (PzFam f d) lower upper) = to_bambi (PzCensored (PzFam g e) lower upper) /\
  to_bambi (PzHurdle (PzFam f d) psi) = to_bambi (PzHurdle (PzFam g e) psi).
Proof. intros f g d e lower upper psi E. unfold to_bambi, kwargs_of. cbn [params_dict_of pz_name]. rewrite E. repeat split; reflexivity. Qed.
Example C59_base_lost_applies : exists d' e', construct ig_from_mu_sigma Normal (just ["mu"; "sigma"] (fun _ => 2)) = Ok d' /\
    construct ig_from_mu_sigma LogNormal (just ["mu"; "sigma"] (fun _ => 2)) = Ok e' /\ params_dict d' = params_dict e' /\ params_dict d' <> None.
Proof. do 2 eexists. split; [reflexivity|]. split; [reflexivity|]. split; [reflexivity|discriminate]. Qed.
(** Modifier parameters named like base parameters replace them: of Truncated(Uniform(a, b), lower, upper) the prior only keeps the outer bounds. *)
Theorem C59_uniform_bounds_overwritten_refuted : forall ptd a b lower upper, exists d,
  construct ptd Uniform (just ["lower"; "upper"] (fun k => if String.eqb k "lower" then a else b)) = Ok d /\
  to_bambi (PzTruncated (PzFam Uniform d) lower upper) = Ok (PmPlain "Truncated" [("lower", Some lower); ("upper", Some upper)]).
Proof. intros. eexists. split; reflexivity. Qed.

(** A Mixture prior: its components, converted in order, with its weights. *)
Theorem C59_from_prior_mixture : forall ptd comps xs ws kw, map_res (from_prior ptd) comps = Ok xs ->
  kw = [("w", PList ws); ("comp_dists", PPriors comps)] \/ kw = [("comp_dists", PPriors comps); ("w", PList ws)] ->
  from_prior ptd (mkPrior "Mixture" kw) = Ok (PzMixture xs (map Some ws)).
Proof.
  intros ptd comps xs ws kw M K.
  assert (G : forall l ys, map_res (from_prior ptd) l = Ok ys ->
    (fix go l := match l with [] => Ok [] | q :: r => do x <- from_prior ptd q; do xs <- go r; Ok (x :: xs) end) l = Ok ys).
  { induction l as [|a l IH]; intros ys E; cbn [map_res] in E; [injection E as <-; reflexivity|].
    destruct (from_prior ptd a) as [y|e]; [|discriminate]. cbn [bind] in *.
    destruct (map_res (from_prior ptd) l) as [zs|e]; [|discriminate]. injection E as <-. now rewrite (IH zs eq_refl). }
  specialize (G _ _ M).
  assert (W : existsb (fun w : option xr => match w with None => true | Some _ => false end) (map Some ws) = false).
  { clear. induction ws as [|w ws IH]; [reflexivity|exact IH]. }
  destruct K as [-> | ->]; cbn; rewrite G; cbn [bind]; unfold make_mixture; rewrite W, andb_false_r; reflexivity.
Qed.
Example C59_from_prior_mixture_applies : forall ptd, exists xs,
  map_res (from_prior ptd) [prior_of "Normal" [("mu", Fin 0); ("sigma", Fin 1)]; prior_of "Normal" [("mu", Fin 5); ("sigma", Fin 1)]] = Ok xs.
Proof. eexists. reflexivity. Qed.
Lemma put_same {A} (kw : list (string * A)) : NoDup (map fst kw) -> forall acc, acc = [] \/ map fst acc = map fst kw ->
  fold_left (fun acc p => put (fst p) (snd p) acc) kw acc = kw.
Proof.
  intros N acc [->|E]; [apply dict_nodup, N|].
  assert (G : forall (kw rest done : list (string * A)), map fst rest = map fst kw -> NoDup (map fst (done ++ kw)) ->
    fold_left (fun acc p => put (fst p) (snd p) acc) kw (done ++ rest)%list = (done ++ kw)%list).
  { clear. induction kw as [|[k x] kw IH]; intros [|[k' y] rest] done E N; try discriminate E; [reflexivity|]. cbn in E. injection E as -> E. cbn [fold_left fst snd].
    assert (P : put k x (done ++ (k, y) :: rest)%list = (done ++ (k, x) :: rest)%list).
    { rewrite map_app in N. cbn [map fst] in N. apply NoDup_remove_2 in N. assert (M : ~ In k (map fst done)) by (intro I; apply N, in_or_app; left; exact I).
      clear -M. induction done as [|[j z] done IH]; cbn [app put]; [rewrite String.eqb_refl; reflexivity|].
      replace (String.eqb j k) with false by (symmetry; apply String.eqb_neq; intros ->; apply M; left; reflexivity). rewrite IH; [reflexivity|]. intro I. apply M. right. exact I. }
    rewrite P. specialize (IH rest (done ++ [(k, x)])%list E). rewrite <- !app_assoc in IH. cbn [app] in IH. apply IH. exact N. }
  apply (G kw acc []); assumption.
Qed.
(** The bambi prior of a mixture is called Mixture and has the weights as given, but one value for each name of a parameter. So, of several components
    of one family, only the last is left. *)
Theorem C59_to_bambi_mixture_refuted : forall f d kw ws (first : list dist), params_dict d = Some kw -> NoDup (map fst kw) ->
  (forall e, In e first -> exists kw', params_dict e = Some kw' /\ map fst kw' = map fst kw) ->
  to_bambi (PzMixture (map (PzFam f) (first ++ [d])) ws) = Ok (PmWeighted "Mixture" kw ws).
Proof.
  intros f d kw ws first K N H. unfold to_bambi.
  assert (C : exists kws, component_params (map (PzFam f) (first ++ [d])) = Some (List.concat kws ++ kw)%list /\ Forall (fun kw' => map fst kw' = map fst kw) kws).
  { induction first as [|e first IH].
    - exists []. cbn. rewrite K. split; [rewrite app_nil_r; reflexivity|constructor].
    - destruct IH as (kws & E & P); [intros e' I; apply H; right; exact I|]. destruct (H e (or_introl eq_refl)) as (kw' & E' & S').
      exists (kw' :: kws). cbn [app map component_params]. rewrite E', E. split; [cbn [List.concat]; rewrite app_assoc; reflexivity|constructor; assumption]. }
  destruct C as (kws & E & P). rewrite E. do 2 f_equal. unfold dict.
  assert (G : forall acc, acc = [] \/ map fst acc = map fst kw -> fold_left (fun acc p => put (fst p) (snd p) acc) (List.concat kws ++ kw)%list acc = kw).
  { clear -P N. induction P as [|kw' kws S' P IH]; intros acc A; [apply put_same; assumption|]. cbn [List.concat]. rewrite <- app_assoc, fold_left_app.
    rewrite (put_same kw'); [|rewrite S'; exact N|rewrite S'; exact A]. apply IH. right. exact S'. }
  apply G. left. reflexivity.
Qed.
Example C59_to_bambi_mixture_applies : exists d e, construct ig_from_mu_sigma Normal (just ["mu"; "sigma"] (fun _ => 2)) = Ok d /\
  construct ig_from_mu_sigma Normal (just ["mu"; "sigma"] (fun _ => 1)) = Ok e /\
  to_bambi (PzMixture [PzFam Normal e; PzFam Normal d] [Some (Fin 1); Some (Fin 3)]) =
    Ok (PmWeighted "Mixture" [("mu", Some (Fin 2)); ("sigma", Some (Fin 2))] [Some (Fin 1); Some (Fin 3)]).
Proof. do 2 eexists. repeat split; reflexivity. Qed.

(** The object that bambi.Prior makes of its arguments; none of them is open. *)
Definition bambi_prior (c : pmcall) (p : prior) : Prop :=
  match c, p with
  | PmPlain name kw, mkPrior name' kw' => name' = name /\ Forall2 (fun a b => fst a = fst b /\ exists x, snd a = Some x /\ snd b = PNum x) kw kw'
  | PmWeighted name kw ws, mkPrior name' kw' => name' = name /\ exists l ws', ws = map Some ws' /\ kw' = (l ++ [("weights", PList ws')])%list /\
      Forall2 (fun a b => fst a = fst b /\ exists x, snd a = Some x /\ snd b = PNum x) kw l
  | _, _ => False
  end.
Lemma put_names {A} k (x : A) l j : In j (map fst (put k x l)) -> j = k \/ In j (map fst l).
Proof.
  induction l as [|[i y] l IH]; cbn [put]; [cbn; intros [E|[]]; auto|]. destruct (String.eqb i k); cbn [map fst In]; [tauto|]. intros [E|H]; [auto|]. destruct (IH H); auto.
Qed.
Lemma dict_names {A} (l : list (string * A)) j : In j (map fst (dict l)) -> In j (map fst l).
Proof.
  unfold dict. assert (G : forall acc, In j (map fst (fold_left (fun acc p => put (fst p) (snd p) acc) l acc)) -> In j (map fst acc) \/ In j (map fst l)).
  { induction l as [|[k x] l IH]; intros acc H; [auto|]. cbn [fold_left fst snd] in H. apply IH in H. destruct H as [H|H]; [|right; right; exact H].
    apply put_names in H. destruct H as [->|H]; [right; left; reflexivity|auto]. }
  intro H. apply G in H. destruct H as [[]|H]; exact H.
Qed.
Lemma assoc_none {A} k (l : list (string * A)) : ~ In k (map fst l) -> assoc k l = None.
Proof.
  induction l as [|[j x] l IH]; intro N; [reflexivity|]. cbn [assoc]. replace (String.eqb j k) with false; [apply IH; intro I; apply N; right; exact I|].
  symmetry. apply String.eqb_neq. intros ->. apply N. left. reflexivity.
Qed.
Lemma same_names {A B} (R : A -> B -> Prop) (l : list (string * A)) (l' : list (string * B)) :
  Forall2 (fun a b => fst a = fst b /\ R (snd a) (snd b)) l l' -> map fst l' = map fst l.
Proof. induction 1 as [|a b l l' [E _] _ IH]; [reflexivity|]. cbn. rewrite IH, E. reflexivity. Qed.
(** FINDING. Of truncated, censored, hurdle and mixed families no prior that to_bambi makes can be read back: KeyError or AttributeError. *)
Theorem C59_bambi_round_trip_refuted : forall ptd f d kw lower upper psi c p, params_dict d = Some kw -> ~ In "dist" (map fst kw) ->
  bambi_prior c p ->
  (to_bambi (PzTruncated (PzFam f d) lower upper) = Ok c -> from_prior ptd p = Err KeyError) /\
  (to_bambi (PzCensored (PzFam f d) lower upper) = Ok c -> from_prior ptd p = Err KeyError) /\
  (to_bambi (PzHurdle (PzFam f d) psi) = Ok c -> from_prior ptd p = Err AttributeError) /\
  (forall cs ws all, component_params cs = Some all -> ~ In "comp_dists" (map fst all) -> to_bambi (PzMixture cs ws) = Ok c -> from_prior ptd p = Err KeyError).
Proof.
  intros ptd f d kw lower upper psi c p K N B. unfold to_bambi, kwargs_of. cbn [params_dict_of pz_name]. rewrite K. cbn [option_map bind].
  assert (D : forall (kw' : list (string * pvalue)), Forall2 (fun a b => fst a = fst b /\ exists x, snd a = Some x /\ snd b = PNum x)
      (dict (kw ++ [("lower", Some lower); ("upper", Some upper)])) kw' -> assoc "dist" kw' = None).
  { intros kw' F. apply assoc_none. rewrite (same_names (fun a b => exists x, a = Some x /\ b = PNum x) _ _ F). intro I. apply dict_names in I. rewrite map_app in I. apply in_app_or in I.
    destruct I as [I|I]; [exact (N I)|]. cbn in I. intuition discriminate. }
  repeat match goal with |- _ /\ _ => split end.
  - intros [= <-]. destruct p as [name kw']. destruct B as [-> F]. cbn. rewrite (D _ F). reflexivity.
  - intros [= <-]. destruct p as [name kw']. destruct B as [-> F]. cbn. rewrite (D _ F). reflexivity.
  - intros [= <-]. destruct p as [name kw']. destruct B as [-> F]. reflexivity.
  - intros cs ws all A NA. rewrite A. intros [= <-]. destruct p as [name kw']. destruct B as [-> (l & ws' & _ & -> & F)].
    cbn [from_prior]. change (String.eqb "Mixture" "Truncated" || String.eqb "Mixture" "Censored") with false. change (String.prefix "Hurdle" "Mixture") with false.
    change (String.eqb "Mixture" "Mixture") with true. cbv iota. apply (same_names (fun a b => exists x, a = Some x /\ b = PNum x)) in F. assert (Nl : ~ In "comp_dists" (map fst l)) by (rewrite F; intro I; apply NA, dict_names, I).
    clear -Nl. match goal with |- bind ?e _ = _ => assert (G : e = Err KeyError); [|now rewrite G] end.
    induction l as [|[j x] l IH]; [reflexivity|]. cbn [app].
    destruct (String.eqb "comp_dists" j) eqn:E; [apply String.eqb_eq in E; subst j; exfalso; apply Nl; left; reflexivity|].
    apply IH. intro I. apply Nl. right. exact I.
Qed.
Example C59_bambi_round_trip_applies : exists d, construct ig_from_mu_sigma Normal (just ["mu"; "sigma"] (fun _ => 2)) = Ok d /\
  exists kw c p, params_dict d = Some kw /\ ~ In "dist" (map fst kw) /\ to_bambi (PzTruncated (PzFam Normal d) (Fin 0) PInf) = Ok c /\ bambi_prior c p.
Proof.
  eexists. split; [reflexivity|]. do 2 eexists.
  exists (mkPrior "Truncated" [("mu", PNum (Fin 2)); ("sigma", PNum (Fin 2)); ("lower", PNum (Fin 0)); ("upper", PNum PInf)]).
  split; [reflexivity|]. split; [cbn; intuition discriminate|]. split; [reflexivity|]. split; [reflexivity|].
  repeat (constructor; [split; [reflexivity|eexists; split; reflexivity]|]). constructor.
Qed.
Print Assumptions C59_from_pymc.
Print Assumptions C59_mixed_inputs_refuted.
Print Assumptions C59_censored.
Print Assumptions C59_truncated.
Print Assumptions C59_truncated_halfnormal_refuted.
Print Assumptions C59_zero_inflated.
Print Assumptions C59_mixture.
Print Assumptions C59_hurdle.
Print Assumptions C59_hurdle_truncated_refuted.
Print Assumptions C59_from_prior.
Print Assumptions C59_from_prior_bounded.
Print Assumptions C59_from_prior_hurdle.
Print Assumptions C59_round_trip.
Print Assumptions C59_to_pymc_bounded.
Print Assumptions C59_to_pymc_mixture.
Print Assumptions C59_to_pymc_context_refuted.
Print Assumptions C59_to_bambi.
Print Assumptions C59_to_bambi_modified.
Print Assumptions C59_to_bambi_base_lost_refuted.
Print Assumptions C59_uniform_bounds_overwritten_refuted.
Print Assumptions C59_from_prior_mixture.
Print Assumptions C59_to_bambi_mixture_refuted.
Print Assumptions C59_bambi_round_trip_refuted.
