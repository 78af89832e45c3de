(** C54, continued: the information the catalog gives about a distribution. *)
From Coq Require Import List Bool String Reals.
From Verif Require Import Base XR FamModel FamSpec BoundModel CatModel CatSpec CatProps CatInfoModel.
Import ListNotations.
Open Scope R_scope.
Open Scope string_scope.

Lemma find_family f : find (fun c => String.eqb (class_name c) (family_name f)) all_classes = Some (Fam f).
Proof. destruct f; vm_compute; reflexivity. Qed.

(** For every family the catalog gives the name, the kind whose list the class is in, and what the method info of an
    instance without parameters gives: names, bounds of the parameters, support and parametrizations. *)
Theorem C54_info : forall ptd other f, exists d i e,
  construct ptd f (fun _ => None) = Ok d /\ frozen d = false /\ info f (attr d "N") d = Ok i /\
  catalog_info ptd other (family_name f) = Ok e /\
  e_name e = family_name f /\
  (e_kind e = "continuous" /\ In (Fam f) all_continuous /\ ~ In (Fam f) all_discrete \/
   e_kind e = "discrete" /\ In (Fam f) all_discrete /\ ~ In (Fam f) all_continuous) /\
  (exists default rest, sets f = default :: rest /\ e_names e = Tuple default) /\
  List.length (e_bounds e) = List.length (names d) /\
  e_names e = Tuple (i_names i) /\ e_bounds e = i_bounds i /\ e_support e = Some (i_support i) /\
  e_parametrizations e = i_parametrizations i.
Proof.
  intros ptd other f. unfold catalog_info. rewrite find_family.
  destruct f; (do 3 eexists; split; [reflexivity|]; split; [reflexivity|]; split; [reflexivity|]; split; [reflexivity|];
    split; [reflexivity|]; split;
    [first [left; split; [reflexivity|]; split; [cbn; tauto|cbn; intuition discriminate] |
            right; split; [reflexivity|]; split; [cbn; tauto|cbn; intuition discriminate]]|];
    split; [do 2 eexists; split; reflexivity|];
    repeat split; reflexivity).
Qed.
(** The classes that are no such family: the kind is that of the list the class is in. *)
Theorem C54_info_kinds : forall ptd other name e c, catalog_info ptd other name = Ok e -> In c all_classes -> class_name c = name ->
  (e_kind e = "continuous" <-> In c all_continuous) /\ (e_kind e = "discrete" <-> In c all_discrete) /\
  (e_kind e = "continuous_multivariate" <-> In c all_continuous_multivariate).
Proof.
  intros ptd other name e c H I E. subst name.
  destruct c as [f| | | | | | |]; try (exfalso; revert H; cbn; discriminate).
  - destruct (C54_info ptd other f) as (d & i & e' & _ & _ & _ & H' & _ & K & _). change (class_name (Fam f)) with (family_name f) in H. rewrite H' in H. injection H as <-.
    assert (M : ~ In (Fam f) all_continuous_multivariate) by (cbn; intuition discriminate).
    destruct K as [(K & A & B)|(K & A & B)]; rewrite K; repeat split; intro Q; try discriminate Q; try exact A; try reflexivity; contradiction.
  - revert H. cbn. intro H. injection H as <-. cbn. repeat split; intro Q; try discriminate Q; intuition (try discriminate).
  - revert H. cbn. intro H. injection H as <-. cbn. repeat split; intro Q; try discriminate Q; intuition (try discriminate).
  - revert H. cbn. intro H. injection H as <-. cbn. repeat split; intro Q; try discriminate Q; intuition (try discriminate).
Qed.
(** Which names it knows: exactly those of the classes that are not modifiers. *)
Theorem C54_info_names : forall ptd other name,
  (exists e, catalog_info ptd other name = Ok e) <->
  exists c, In c (all_continuous ++ all_discrete ++ all_continuous_multivariate) /\ class_name c = name.
Proof.
  intros ptd other name. split.
  - intros [e H]. unfold catalog_info in H. destruct (find _ all_classes) as [c|] eqn:F; [|destruct (other name); discriminate].
    apply find_some in F. destruct F as [I E]. apply String.eqb_eq in E. exists c. split; [|exact E].
    unfold all_classes in I. apply in_app_or in I. destruct I as [I|I]; [apply in_or_app; now left|].
    apply in_app_or in I. destruct I as [I|I]; [apply in_or_app; right; apply in_or_app; now left|].
    apply in_app_or in I. destruct I as [I|I]; [apply in_or_app; right; apply in_or_app; now right|].
    unfold all_modifiers in I. cbn in I. destruct I as [I|[I|[I|[I|[]]]]]; subst c; discriminate H.
  - intros (c & I & <-).
    assert (Q : (exists f, c = Fam f) \/ c = CCategorical \/ c = CDirichlet \/ c = CMvNormal).
    { destruct c; eauto; cbn in I; intuition discriminate. }
    destruct Q as [[f ->]|[->|[->| ->]]].
    + destruct (C54_info ptd other f) as (d & i & e & _ & _ & _ & H & _). exists e. exact H.
    + eexists. reflexivity.
    + eexists. reflexivity.
    + eexists. reflexivity.
Qed.
(** The modifiers, which the catalog lists when it is shown, have no information: TypeError. Neither have three names that
    its own groups contain: AttributeError (unless the module gets such an attribute). *)
Theorem C54_info_refuted : forall ptd other,
  (forall c, In c all_modifiers -> catalog_info ptd other (class_name c) = Err TypeError) /\
  (forall name, In name ["ScaledInverseChiSquared"; "Hypergeometric"; "MultivariateNormal"] ->
     (exists category l, get category "names" = Ok (Names l) /\ In name l) /\
     (other name = false -> catalog_info ptd other name = Err AttributeError)).
Proof.
  intros ptd other. split.
  - intros c [<-|[<-|[<-|[<-|[]]]]]; reflexivity.
  - intros name [<-|[<-|[<-|[]]]]; (split; [|intro O; unfold catalog_info; cbn -[String.eqb]; cbn; rewrite O; reflexivity]).
    + exists "asymmetric". eexists. split; [reflexivity|cbn; tauto].
    + exists "bounded_discrete". eexists. split; [reflexivity|cbn; tauto].
    + exists "multivariate". eexists. split; [reflexivity|cbn; tauto].
Qed.
(** For Categorical the names are one text instead of a tuple of names, and the support is not known. It is the only one. *)
Theorem C54_info_categorical_refuted : forall ptd other,
  (exists e, catalog_info ptd other "Categorical" = Ok e /\ e_names e = Text "p" /\ e_support e = None) /\
  forall name e, catalog_info ptd other name = Ok e -> name <> "Categorical" ->
    exists l s, e_names e = Tuple l /\ e_support e = Some s.
Proof.
  intros ptd other. split; [eexists; split; [reflexivity|split; reflexivity]|].
  intros name e H N. unfold catalog_info in H. destruct (find _ all_classes) as [c|] eqn:F; [|destruct (other name); discriminate].
  apply find_some in F. destruct F as [_ E]. apply String.eqb_eq in E.
  destruct c as [f| | | | | | |]; try discriminate H.
  - destruct (construct ptd f (fun _ => None)) as [d|]; [|discriminate]. injection H as <-. eexists. eexists. split; reflexivity.
  - exfalso. apply N. now rewrite <- E.
  - injection H as <-. eexists. eexists. split; reflexivity.
  - injection H as <-. eexists. eexists. split; reflexivity.
Qed.
Example C54_info_example : forall ptd other, exists e, catalog_info ptd other "HyperGeometric" = Ok e /\ e_kind e = "discrete" /\
  e_names e = Tuple ["N"; "k"; "n"] /\ List.length (e_bounds e) = 3%nat /\ e_parametrizations e = None.
Proof. intros. eexists. split; [reflexivity|repeat split; reflexivity]. Qed.

Print Assumptions C54_info.
Print Assumptions C54_info_kinds.
Print Assumptions C54_info_names.
Print Assumptions C54_info_refuted.
Print Assumptions C54_info_categorical_refuted.
