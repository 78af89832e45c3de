(** C54: the catalogue; C55: descriptions of an instance. *)
From Coq Require Import List Bool String Reals Lra Lia Arith.
From Verif Require Import Base XR FamModel FamSpec FamArith FamProofs FamReadback FamHistory FamProps BoundModel CatModel CatSpec.
Import ListNotations.
Open Scope R_scope.
Open Scope string_scope.

Lemma bare ptd f : exists d, construct ptd f (fun _ => None) = Ok d /\ names d = canonical f /\ supp d = bare_support f.
Proof. destruct f; eexists; (split; [reflexivity|]); split; reflexivity. Qed.

Lemma uninit ptd c : In c (all_continuous ++ all_discrete) ->
  exists ns s, uninitialised ptd c = Ok (ns, s) /\ (forall n, List.length ns = n <-> has_params c n) /\
    s = match c with Fam f => Some (bare_support f) | _ => None end.
Proof.
  intro H. destruct c as [f| | | | | | | ];
    try (exfalso; cbn in H; repeat (destruct H as [H|H]; [discriminate H|]); exact H).
  - destruct (bare ptd f) as (d & E & N & S). exists (names d), (Some (supp d)). cbn [uninitialised]. rewrite E.
    cbn [bind]. split; [reflexivity|]. rewrite N, S. split; [cbn [has_params]; tauto|reflexivity].
  - exists ["p"], None. split; [reflexivity|]. split; [cbn; intro n; split; congruence|reflexivity].
Qed.

Lemma xeqb_inf x : xeqb x PInf = true <-> x = PInf.
Proof. destruct x; cbn; split; intro; try reflexivity; try discriminate. Qed.
Lemma xeqb_ninf x : xeqb x NInf = true <-> x = NInf.
Proof. destruct x; cbn; split; intro; try reflexivity; try discriminate. Qed.
Lemma xle0 x : xleb (Fin 0) x = true <-> (x = PInf \/ exists y, x = Fin y /\ 0 <= y).
Proof.
  destruct x as [r| | |]; unfold xleb; cbn; try (split; [discriminate|]; intros [H|(y & H & _)]; discriminate H).
  - destruct (Rltb_spec 0 r); cbn.
    + split; [|auto]. intros _. right. exists r. split; [reflexivity|lra].
    + destruct (Reqb_spec 0 r); cbn; split; try discriminate; intro K.
      * right. exists r. split; [reflexivity|lra].
      * reflexivity.
      * destruct K as [K|(y & K & L)]; [discriminate|]. injection K as <-. lra.
  - split; auto.
Qed.

Lemma matches_iff c t : In c (all_continuous ++ all_discrete) ->
  matches_support (match c with Fam f => Some (bare_support f) | _ => None end) t = true <-> has_support c t.
Proof.
  intro H. destruct c as [f| | | | | | | ]; try (cbn; split; [discriminate|contradiction]).
  cbn [matches_support has_support]. unfold support_kind. destruct (bare_support f) as [lo up]. cbn [fst snd].
  destruct (String.eqb_spec t "positive") as [->|N1].
  { rewrite andb_true_iff, xle0, xeqb_inf. split; [tauto|].
    intros [A|[A|[A|[A|A]]]]; try tauto; try (destruct A as [A _]; discriminate A).
    exfalso. apply A. cbn. tauto. }
  destruct (String.eqb_spec t "bounded") as [->|N2].
  { rewrite andb_true_iff, !negb_true_iff. split.
    - intros [A B]. right. left. split; [reflexivity|]. split; intro K; subst; discriminate.
    - intros [A|[A|[A|[A|A]]]]; try (destruct A as [A _]; discriminate A).
      + destruct A as (_ & A & B). split; apply not_true_iff_false; [rewrite xeqb_ninf|rewrite xeqb_inf]; assumption.
      + exfalso. apply A. cbn. tauto. }
  destruct (String.eqb_spec t "unbounded") as [->|N3].
  { rewrite andb_true_iff, xeqb_ninf, xeqb_inf. split; [tauto|].
    intros [A|[A|[A|[A|A]]]]; try tauto; try (destruct A as [A _]; discriminate A).
    exfalso. apply A. cbn. tauto. }
  destruct (String.eqb_spec t "non_negative") as [->|N4].
  { rewrite xle0. split; [tauto|].
    intros [A|[A|[A|[A|A]]]]; try tauto; try (destruct A as [A _]; discriminate A).
    exfalso. apply A. cbn. tauto. }
  split; [|reflexivity]. intros _. do 4 right. cbn. intros [K|[K|[K|[K|[]]]]]; congruence.
Qed.

Definition keeps (n : option nat) (t : option string) (c : cls) : Prop :=
  (forall k, n = Some k -> has_params c k) /\ (forall s, t = Some s -> has_support c s).

Lemma find_loop_spec ptd n t l : incl l (all_continuous ++ all_discrete) ->
  exists p, find_loop ptd n t l = Ok (filter p l) /\ forall c, In c l -> (p c = true <-> keeps n t c).
Proof.
  set (p := fun c => negb
    ((match n with Some k => negb (Nat.eqb (match c with Fam f => List.length (canonical f) | _ => 1%nat end) k) | None => false end) ||
     (match t with Some s => negb (matches_support (match c with Fam f => Some (bare_support f) | _ => None end) s) | None => false end))).
  intro HI. exists p. split.
  - induction l as [|c r IH]; [reflexivity|]. cbn [find_loop filter].
    destruct (uninit ptd c (HI c (or_introl eq_refl))) as (ns & s & E & Hn & ->). rewrite E. cbn [bind].
    rewrite IH by (intros x Hx; apply HI; right; exact Hx). cbn [bind]. f_equal. unfold p.
    replace (match c with Fam f => List.length (canonical f) | _ => 1%nat end) with (List.length ns).
    + destruct (_ || _); reflexivity.
    + specialize (Hn (match c with Fam f => List.length (canonical f) | _ => 1%nat end)). apply Hn.
      destruct c; reflexivity.
  - intros c Hc. unfold p, keeps. rewrite negb_true_iff, orb_false_iff.
    assert (A : match n with Some k => negb (Nat.eqb (match c with Fam f => List.length (canonical f) | _ => 1%nat end) k) | None => false end = false
                <-> (forall k, n = Some k -> has_params c k)).
    { destruct n as [k|]; [|split; [intros _ k K; discriminate|reflexivity]].
      rewrite negb_false_iff, Nat.eqb_eq. split.
      - intros K j J. injection J as <-. destruct c; cbn [has_params]; auto.
      - intro K. specialize (K k eq_refl). destruct c; cbn [has_params] in K; auto. }
    assert (B : match t with Some s => negb (matches_support (match c with Fam f => Some (bare_support f) | _ => None end) s) | None => false end = false
                <-> (forall s, t = Some s -> has_support c s)).
    { destruct t as [s|]; [|split; [intros _ k K; discriminate|reflexivity]].
      rewrite negb_false_iff, matches_iff by (apply HI; exact Hc). split.
      - intros K j J. injection J as <-. exact K.
      - intro K. exact (K s eq_refl). }
    rewrite A, B. tauto.
Qed.

Lemma filter_all {A} (l : list A) : filter (fun _ => true) l = l.
Proof. induction l as [|x l IH]; cbn; [reflexivity|]. rewrite IH. reflexivity. Qed.
Lemma filter_filter {A} (p q : A -> bool) l : filter p (filter q l) = filter (fun c => q c && p c) l.
Proof.
  induction l as [|x l IH]; [reflexivity|].
  cbn. destruct (q x); cbn; [destruct (p x)|]; rewrite IH; reflexivity.
Qed.
Lemma nodup_front {A} (l m : list A) : NoDup (l ++ m) -> NoDup l.
Proof.
  induction l as [|x l IH]; intro H; [constructor|].
  cbn [app] in H. inversion H as [|? ? N1 N2]; subst. constructor; [|auto]. intro K. apply N1. apply in_or_app. auto.
Qed.

Lemma classes_nodup : NoDup all_classes.
Proof.
  unfold all_classes, all_continuous, all_discrete, all_continuous_multivariate, all_modifiers. cbn [map app].
  repeat (constructor; [cbn [In]; intro H; repeat (destruct H as [H|H]; [discriminate H|]); exact H|]). constructor.
Qed.

(** [find] never raises and returns, each once and in catalogue order, exactly the univariate distributions that pass
    every filter that was given. *)
Theorem C54_find : forall ptd kind n t, exists l, catalog_find ptd kind n t = Ok l /\ NoDup l /\
  (forall c, In c l <-> of_kind kind c /\ (forall k, n = Some k -> has_params c k) /\ (forall s, t = Some s -> has_support c s)) /\
  exists p, l = filter p (all_continuous ++ all_discrete).
Proof.
  intros ptd kind n t. unfold catalog_find.
  assert (ND : NoDup (all_continuous ++ all_discrete)).
  { pose proof classes_nodup as H. unfold all_classes in H. rewrite app_assoc in H.
    exact (nodup_front _ _ H). }
  set (cand := match kind with
    | Some k => if String.eqb k "continuous" then all_continuous
                else if String.eqb k "discrete" then all_discrete else (all_continuous ++ all_discrete)%list
    | None => (all_continuous ++ all_discrete)%list end).
  assert (HC : (forall c, In c cand <-> of_kind kind c) /\ exists q, cand = filter q (all_continuous ++ all_discrete)).
  { unfold cand, of_kind. destruct kind as [k|].
    - destruct (String.eqb_spec k "continuous") as [->|N1].
      + split; [intro c; split; [tauto|]|exists (fun c => match c with Fam (Bernoulli | BetaBinomial | Binomial | DiscreteUniform | DiscreteWeibull | Geometric | HyperGeometric
            | NegativeBinomial | Poisson | ZeroInflatedBinomial | ZeroInflatedNegativeBinomial | ZeroInflatedPoisson) => false | Fam _ => true | _ => false end); reflexivity].
        intros [[_ A]|[[A _]|[A _]]]; [exact A|discriminate A|congruence].
      + destruct (String.eqb_spec k "discrete") as [->|N2].
        * split; [intro c; split; [tauto|]|exists (fun c => match c with Fam (Bernoulli | BetaBinomial | Binomial | DiscreteUniform | DiscreteWeibull | Geometric | HyperGeometric
            | NegativeBinomial | Poisson | ZeroInflatedBinomial | ZeroInflatedNegativeBinomial | ZeroInflatedPoisson) => true | Fam _ => false | _ => true end); reflexivity].
          intros [[A _]|[[_ A]|[_ [A _]]]]; [discriminate A|exact A|congruence].
        * split.
          -- intro c. rewrite in_app_iff. split.
             ++ intro A. do 2 right. repeat split; [congruence|congruence|exact A].
             ++ intros [[A _]|[[A _]|[_ [_ A]]]]; [congruence|congruence|exact A].
          -- exists (fun _ => true). symmetry. apply filter_all.
    - split.
      + intro c. rewrite in_app_iff. split.
        * intro A. do 2 right. repeat split; [discriminate|discriminate|exact A].
        * intros [[A _]|[[A _]|[_ [_ A]]]]; [discriminate|discriminate|exact A].
      + exists (fun _ => true). symmetry. apply filter_all. }
  destruct HC as [HC [q Hq]].
  assert (HI : incl cand (all_continuous ++ all_discrete)).
  { rewrite Hq. intros x Hx. apply filter_In in Hx. tauto. }
  destruct (find_loop_spec ptd n t cand HI) as (p & E & Hp).
  exists (filter p cand). split; [exact E|]. split; [|split].
  - apply NoDup_filter. rewrite Hq. apply NoDup_filter. exact ND.
  - intro c. rewrite filter_In. split.
    + intros [A B]. split; [apply HC; exact A|]. apply Hp in B; auto.
    + intros [A B]. apply HC in A. split; [exact A|]. apply Hp; auto.
  - exists (fun c => q c && p c). rewrite Hq. apply filter_filter.
Qed.

(** An unknown kind filters nothing; an unknown support filters Categorical only. *)
Theorem C54_unknown_filter_refuted : forall ptd n t,
  catalog_find ptd (Some "multivariate") n t = catalog_find ptd None n t /\
  forall l, catalog_find ptd None None (Some "compact") = Ok l -> forall f, In (Fam f) l.
Proof.
  intros ptd n t. split.
  { unfold catalog_find. cbn [String.eqb Ascii.eqb Bool.eqb]. reflexivity. }
  intros l E f.
  destruct (C54_find ptd None None (Some "compact")) as (l' & E' & _ & H & _).
  rewrite E in E'. injection E' as <-. apply H. split.
  - right. right. split; [discriminate|]. split; [discriminate|]. destruct f; cbn; tauto.
  - split; [discriminate|]. intros s K. injection K as <-. cbn [has_support]. unfold support_kind. do 4 right.
    intros [K|[K|[K|[K|[]]]]]; discriminate K.
Qed.

(** The bounded filter looks at instances without parameters, so it misses families that are bounded whenever their
    parameters are set. *)
Theorem C54_bounded_missed_refuted : forall f,
  In f [Uniform; DiscreteUniform; Triangular; TruncatedNormal; Binomial; BetaBinomial; ZeroInflatedBinomial] ->
  (forall ptd a d, construct ptd f a = Ok d -> frozen d = true ->
     Forall (fun p => exists x, p = Some (Fin x)) (params d) -> exists x y, supp d = (Fin x, Fin y)) /\
  (forall ptd kind n l, catalog_find ptd kind n (Some "bounded") = Ok l -> ~ In (Fam f) l).
Proof.
  intros f Hf. split.
  - intros ptd a d H Hz Hp.
    destruct (C10_support_tracks ptd f a d [] d) as (P & _ & S); auto.
    { unfold tracked. cbn [In] in *. tauto. }
    rewrite S. rewrite P in Hp. pose proof (construct_names ptd f a d H) as HN.
    assert (K : forall k, In k (names d) -> exists x, attr d k = Some (Fin x)).
    { intros k Hk. rewrite Forall_forall in Hp. destruct (Hp (attr d k)) as [x Hx]; [apply in_map; exact Hk|eauto]. }
    cbn [In] in Hf. repeat (destruct Hf as [<-|Hf]; [cbn [sets In] in HN; destruct HN as [HN|[]]; rewrite <- HN in K|]);
      try contradiction Hf; cbn [support_of];
      repeat match goal with
      | |- context [attr d ?k] => let x := fresh "x" in let E := fresh "E" in
          destruct (K k ltac:(cbn; tauto)) as [x E]; rewrite E; cbn [np_float64]
      end; try (eexists; eexists; reflexivity).
    destruct (xeqb _ _); eexists; eexists; reflexivity.
  - intros ptd kind n l E Hin. destruct (C54_find ptd kind n (Some "bounded")) as (l' & E' & _ & H & _).
    rewrite E in E'. injection E' as <-. apply H in Hin. destruct Hin as (_ & _ & B).
    specialize (B "bounded" eq_refl). cbn [has_support] in B. unfold support_kind in B.
    cbn [In] in Hf. repeat (destruct Hf as [<-|Hf]; [cbn [bare_support natural_support fst snd] in B; 
      destruct B as [(K & _)|[(_ & A1 & A2)|[(K & _)|[(K & _)|K]]]];
        [discriminate K|first [apply A1; reflexivity|apply A2; reflexivity]|discriminate K|discriminate K|
         apply K; right; left; reflexivity]|]). contradiction Hf.
Qed.

(* ---------------- get ---------------- *)
Lemma get_class_iff n : (exists c, In c all_classes /\ class_name c = n) <-> exists c, get_dist_class n = Ok c.
Proof.
  unfold get_dist_class. split.
  - intros (c & Hc & E). destruct (find _ all_classes) eqn:F; [eauto|].
    exfalso. eapply find_none in F; [|exact Hc]. cbn in F. rewrite E, String.eqb_refl in F. discriminate.
  - intros (c & E). destruct (find _ all_classes) eqn:F; [|discriminate]. apply find_some in F. destruct F as [A B].
    apply String.eqb_eq in B. eauto.
Qed.
Lemma get_class_name n c : get_dist_class n = Ok c -> class_name c = n /\ In c all_classes.
Proof.
  unfold get_dist_class. destruct (find _ all_classes) eqn:F; [|discriminate]. intro E. injection E as <-.
  apply find_some in F. destruct F as [A B]. apply String.eqb_eq in B. auto.
Qed.
Lemma get_class_err n e : get_dist_class n = Err e -> e = AttributeError.
Proof. unfold get_dist_class. destruct (find _ all_classes); congruence. Qed.

Lemma map_class l :
  ((forall n, In n l -> exists c, In c all_classes /\ class_name c = n) ->
     exists cs, map_res get_dist_class l = Ok cs /\ map class_name cs = l) /\
  ((exists n, In n l /\ ~ exists c, In c all_classes /\ class_name c = n) ->
     map_res get_dist_class l = Err AttributeError).
Proof.
  induction l as [|x r [IH1 IH2]]; split.
  - intros _. exists []. auto.
  - intros (n & [] & _).
  - intro H. destruct (proj1 (get_class_iff x) (H x (or_introl eq_refl))) as (c & E).
    destruct IH1 as (cs & E' & M); [intros n Hn; apply H; right; exact Hn|].
    exists (c :: cs). cbn [map_res]. rewrite E. cbn [bind]. rewrite E'. cbn [bind map]. rewrite M.
    apply get_class_name in E. destruct E as [-> _]. auto.
  - intros (n & Hn & N). cbn [map_res]. destruct (get_dist_class x) as [c|e] eqn:E; cbn [bind].
    + destruct Hn as [<-|Hn].
      * exfalso. apply N. apply get_class_iff. eauto.
      * rewrite IH2; [reflexivity|eauto].
    + apply get_class_err in E. subst. reflexivity.
Qed.

(** [get]: a wrong output is a ValueError, and so is a wrong category; otherwise the names are those of the instances, and
    instances fail with an AttributeError exactly when the category lists a name that is not a distribution. *)
Theorem C54_get : forall category,
  (forall output, output <> "instances" -> output <> "names" -> get category output = Err ValueError) /\
  ((get category "names" = Err ValueError /\ get category "instances" = Err ValueError) \/
   exists ns, get category "names" = Ok (Names ns) /\
     ((forall n, In n ns -> exists c, In c all_classes /\ class_name c = n) ->
        exists cs, get category "instances" = Ok (Instances cs) /\ map class_name cs = ns) /\
     ((exists n, In n ns /\ ~ exists c, In c all_classes /\ class_name c = n) ->
        get category "instances" = Err AttributeError)).
Proof.
  intro category. split.
  - intros o H1 H2. unfold get. apply String.eqb_neq in H1, H2. rewrite H1, H2. reflexivity.
  - unfold get. cbn [String.eqb Ascii.eqb Bool.eqb negb orb].
    destruct (group_of category) as [[l|l]|] eqn:G.
    + right. exists (map class_name l). split; [reflexivity|]. split; [eauto|].
      intros (n & Hn & N). exfalso. apply N. apply in_map_iff in Hn. destruct Hn as (c & E & Hc). exists c. split; [|exact E].
      unfold group_of in G.
      repeat match type of G with context [if ?b then _ else _] => destruct b end;
        try (injection G as <-; unfold all_classes; rewrite !in_app_iff; tauto).
      destruct (lookup category named_groups); discriminate G.
    + right. exists l. split; [reflexivity|]. destruct (map_class l) as [A B]. split.
      * intro H. destruct (A H) as (cs & E & M). exists cs. rewrite E. auto.
      * intro H. rewrite (B H). reflexivity.
    + left. split; reflexivity.
Qed.

(** Exactly these categories cannot be instantiated: they name ScaledInverseChiSquared, Hypergeometric or
    MultivariateNormal, which do not exist. *)
Theorem C54_misnamed_refuted : forall category,
  get category "instances" = Err AttributeError <->
  In category ["non_negative_continuous"; "bounded_discrete"; "multivariate"; "symmetric"; "asymmetric"].
Proof.
  intro category. split.
  - unfold get, group_of. cbn [String.eqb Ascii.eqb Bool.eqb negb orb].
    destruct (String.eqb_spec category "continuous"); [discriminate|].
    destruct (String.eqb_spec category "discrete"); [discriminate|].
    destruct (String.eqb_spec category "continuous_multivariate"); [discriminate|].
    unfold named_groups. cbn [lookup].
    repeat match goal with
    | |- context [String.eqb category ?k] => destruct (String.eqb_spec category k) as [->|]; [vm_compute; intro H; try discriminate H; tauto|]
    end. discriminate.
  - cbn [In]. intros [<-|[<-|[<-|[<-|[<-|[]]]]]]; reflexivity.
Qed.

(** Every documented category is accepted, except non_negative. *)
Theorem C54_documented : forall category, In category documented_categories ->
  get category "names" = Err ValueError <-> category = "non_negative".
Proof.
  intros category H. cbn [documented_categories In] in H.
  repeat (destruct H as [<-|H]; [split; [vm_compute; intro K; try discriminate K; reflexivity|intro K; try discriminate K; reflexivity]|]).
  contradiction.
Qed.

(** Members of a category have the documented support, whatever their parameters. *)
Theorem C54_category_supports : forall category l f ptd a d,
  get category "names" = Ok (Names l) -> In (family_name f) l ->
  construct ptd f a = Ok d -> frozen d = true -> finite_params f d ->
  (category = "non_negative_continuous" -> f <> LogitNormal) ->
  (In category ["non_negative_discrete"; "count"] -> f <> Geometric) ->
  documented_support category (supp d).
Proof.
  intros category l f ptd a d G Hl H Hz (Hp & Hm) X1 X2.
  assert (D : ~ In category ["unbounded"; "positive"; "bounded"; "non_negative_continuous"; "non_negative_discrete";
                             "bounded_discrete"; "count"] -> documented_support category (supp d)).
  { intro N. unfold documented_support.
    repeat match goal with |- match ?c with _ => _ end => destruct c; try exact I | |- (if ?b then _ else _) => destruct b; try exact I end;
    exfalso; apply N; cbn; tauto. }
  assert (T : tracked f -> supp d = support_of f (fun k => np_float64 (attr d k)) /\
                           forall k, In k (names d) -> exists x, attr d k = Some (Fin x)).
  { intro Ht. destruct (C10_support_tracks ptd f a d [] d) as (P & _ & S); auto. split; [exact S|].
    intros k Hk. rewrite P in Hp. rewrite Forall_forall in Hp.
    destruct (Hp (attr d k)) as [x Hx]; [apply in_map; exact Hk|eauto]. }
  assert (F : fixed_support f -> supp d = natural_support f).
  { intro Hf. apply (C10_fixed_support ptd f a d [] d); auto. }
  pose proof (construct_names ptd f a d H) as HN.
  destruct (in_dec string_dec category ["unbounded"; "positive"; "bounded"; "non_negative_continuous";
      "non_negative_discrete"; "bounded_discrete"; "count"]) as [Hc|Hc]; [|exact (D Hc)].
  clear D. apply in_existsb in Hl. clear H Hz.
  assert (PIP : exists x y, (Fin (- PI), Fin PI) = (Fin x, Fin y)) by eauto.
  repeat (destruct Hc as [<-|Hc]; [vm_compute in G; injection G as <-; unfold documented_support;
    destruct f; vm_compute in Hl; try discriminate Hl;
    first [exfalso; apply X1; reflexivity
          |exfalso; apply X2; [cbn; tauto|reflexivity]
          |rewrite F by (unfold fixed_support; cbn [In]; intros K; repeat (destruct K as [K|K]; [discriminate K|]); exact K);
           cbn [natural_support fst snd]; first [reflexivity|eexists; split; [apply Rle_refl|reflexivity]|eexists; eexists; reflexivity]
          |idtac]|]).
  all: try (exfalso; exact Hc).
  all: destruct T as [S K]; [unfold tracked; cbn [In]; tauto|]; rewrite S; cbn [support_of];
    cbn [sets In] in HN; destruct HN as [HN|[]]; rewrite <- HN in K;
    repeat match goal with
      | |- context [attr ?e ?k] => let x := fresh "x" in let E := fresh "E" in
          destruct (K k ltac:(cbn; tauto)) as [x E]; rewrite E in *; cbn [np_float64]
      end; try destruct (xeqb _ _);
    try reflexivity; try (eexists; eexists; reflexivity);
    destruct (Hm eq_refl) as (m & Em & Pm); injection Em as <-; eexists; (split; [|reflexivity]); lra.
Qed.

(** The two exceptions, and what the code gives there. *)
Theorem C54_category_support_refuted : forall ptd,
  (exists l d, get "non_negative_continuous" "names" = Ok (Names l) /\ In "LogitNormal" l /\
     construct ptd LogitNormal (just ["mu"; "sigma"] (fun _ => 1)) = Ok d /\ frozen d = true /\
     finite_params LogitNormal d /\ supp d = (Fin 0, Fin 1)) /\
  (exists l d, get "non_negative_discrete" "names" = Ok (Names l) /\ In "Geometric" l /\
     construct ptd Geometric (just ["p"] (fun _ => 1 / 2)) = Ok d /\ frozen d = true /\
     finite_params Geometric d /\ supp d = (Fin 1, PInf)).
Proof.
  intro ptd. split; eexists; eexists; (split; [reflexivity|]);
    (split; [apply in_existsb; vm_compute; reflexivity|]);
    (split; [reflexivity|]); (split; [reflexivity|]); (split; [|reflexivity]);
    (split; [cbn; repeat (apply Forall_cons; [eauto|]); apply Forall_nil|discriminate]).
Qed.
Example C54_category_example : forall ptd, exists l d,
  get "bounded" "names" = Ok (Names l) /\ In (family_name Uniform) l /\
  construct ptd Uniform (just ["lower"; "upper"] (fun k => if String.eqb k "lower" then -2 else 5)) = Ok d /\
  frozen d = true /\ finite_params Uniform d /\ supp d = (Fin (-2), Fin 5).
Proof.
  intro ptd. eexists; eexists; (split; [reflexivity|]);
    (split; [apply in_existsb; vm_compute; reflexivity|]);
    (split; [reflexivity|]); (split; [reflexivity|]); (split; [|reflexivity]);
    (split; [cbn; repeat (apply Forall_cons; [eauto|]); apply Forall_nil|discriminate]).
Qed.
Example C54_find_example : forall ptd l, catalog_find ptd (Some "discrete") (Some 2%nat) (Some "positive") = Ok l ->
  In (Fam NegativeBinomial) l /\ ~ In (Fam Poisson) l /\ ~ In (Fam Gamma) l.
Proof.
  intros ptd l E. destruct (C54_find ptd (Some "discrete") (Some 2%nat) (Some "positive")) as (l' & E' & _ & H & _).
  rewrite E in E'. injection E' as <-. split; [|split].
  - apply H. split; [right; left; split; [reflexivity|]; cbn; tauto|]. split; [intros n K; injection K as <-; reflexivity|].
    intros s K. injection K as <-. left. split; [reflexivity|]. split; [right; exists 0; split; [reflexivity|lra]|reflexivity].
  - intro K. apply H in K. destruct K as (_ & K & _). specialize (K _ eq_refl). discriminate K.
  - intro K. apply H in K. destruct K as (K & _ & _). destruct K as [[K _]|[[_ K]|[_ [K _]]]]; try discriminate K; [|apply K; reflexivity].
    cbn in K. repeat (destruct K as [K|K]; [discriminate K|]). exact K.
Qed.

(* ---------------- C55 ---------------- *)
Definition described (f : family) (d : dist) : Prop :=
  params d = map (attr d) (names d) /\
  forall ps P k, parametrizations f = Some ps -> In P ps -> In k P -> exists x, attr d k = Some x.
Ltac described_goal :=
  split; [reflexivity|];
  let ps := fresh in let P := fresh in let k := fresh in let E := fresh in let A := fresh in let B := fresh in
  intros ps P k E A B; cbn [parametrizations] in E;
  first [discriminate E |
   injection E as <-; cbn [In] in A;
   repeat (destruct A as [<-|A]; [cbn [In] in B; repeat (destruct B as [<-|B]; [cbn; eauto; fail|]); contradiction B|]);
   contradiction A].
Lemma update_described f d u d' : In (names d) (sets f) -> update f d u = Ok d' -> described f d' /\ frozen d' = true.
Proof.
  intros HN H. unfold described.
  destruct d as [nd pd ad sd fd]; cbn in HN.
  destruct f; split_list u; try discriminate H; cbn [update] in H;
    unfold betabinomial_update, binomial_update, zib_update, hypergeometric_update in H;
    repeat match type of H with
    | context [np_int64 ?x] => destruct (np_int64 x); cbn [bind] in H; try discriminate H
    end; injection H as <-;
    (cbn [sets In] in HN; repeat (destruct HN as [HN|HN]; [subst nd|]); try contradiction HN);
    unfold_updates; cbnU; unfold beta_to_mu_sigma, gamma_to_mu_sigma; cbnU;
    repeat match goal with |- context [if ?c then _ else _] => destruct c end; cbnU;
    (split; [described_goal|reflexivity]).
Qed.
Lemma construct_described ptd f a d : construct ptd f a = Ok d -> frozen d = true -> described f d.
Proof.
  intros H Hf. unfold described.
  destruct f; revert H; unfold_construct; cbn [signature sets];
    intro H; split_args a; cbnH H;
    try (match type of H with context [ptd ?x ?y] => destruct (ptd x y) end; cbnH H);
    unfold pyand in H; crunch H; cbnH H; try discriminate H; injection H as <-; try discriminate Hf;
    unfold_updates; cbnU; unfold beta_to_mu_sigma, gamma_to_mu_sigma; cbnU;
    repeat match goal with |- context [if ?c then _ else _] => destruct c end; cbnU; described_goal.
Qed.

Lemma history_described ptd f a d0 us d :
  construct ptd f a = Ok d0 -> updates f d0 us = Ok d -> frozen d = true -> described f d.
Proof.
  intros H0. pose proof (construct_names ptd f a d0 H0) as HN.
  assert (HD : frozen d0 = true -> described f d0) by (eapply construct_described; eauto).
  clear H0. revert d0 HN HD. induction us as [|u us IH]; simpl; intros d0 HN HD H Hf.
  - injection H as <-. auto.
  - destruct (update f d0 u) as [d1|] eqn:E; [|discriminate].
    apply (IH d1); auto.
    + rewrite (update_names _ _ _ _ E). exact HN.
    + intros _. exact (proj1 (update_described f d0 u d1 HN E)).
Qed.

Lemma combine_map {A B} (g : A -> B) l : combine l (map g l) = map (fun k => (k, g k)) l.
Proof. induction l; cbn; congruence. Qed.

(** The parameter dictionary of an instance pairs every current parameter name with the attribute of that name, after any
    history; it exists exactly for instances with parameters. *)
Theorem C55_params_dict : forall ptd f a d0 us d,
  construct ptd f a = Ok d0 -> updates f d0 us = Ok d ->
  params_dict d = if frozen d then Some (map (fun k => (k, attr d k)) (names d)) else None.
Proof.
  intros ptd f a d0 us d H0 Hu. unfold params_dict. destruct (frozen d) eqn:Hf; [|reflexivity].
  destruct (history_described ptd f a d0 us d H0 Hu Hf) as [-> _]. rewrite combine_map. reflexivity.
Qed.

(** [info] never raises, and reports under each parametrization the attributes of the instance. *)
Theorem C55_info : forall ptd f a d0 us d N,
  construct ptd f a = Ok d0 -> updates f d0 us = Ok d ->
  exists i, info f N d = Ok i /\ i_names i = names d /\ In (i_names i) (sets f) /\
    i_params i = (if frozen d then Some (map (attr d) (names d)) else None) /\
    (frozen d = false -> i_values i = None) /\
    (forall ps, frozen d = true -> i_parametrizations i = Some ps ->
       exists vs, i_values i = Some vs /\ map fst vs = ps /\
                  forall P xs, In (P, xs) vs -> map Some xs = map (attr d) P).
Proof.
  intros ptd f a d0 us d N H0 Hu.
  assert (HN : In (names d) (sets f)).
  { rewrite (updates_names _ _ _ _ Hu). eapply construct_names; eauto. }
  unfold info. destruct (parametrizations f) as [ps|] eqn:Eps.
  - destruct (frozen d) eqn:Hf.
    + destruct (history_described ptd f a d0 us d H0 Hu Hf) as [HP HA].
      assert (A1 : forall P, (forall k, In k P -> exists x, attr d k = Some x) ->
                   exists xs, map_res (getattr d) P = Ok xs /\ map Some xs = map (attr d) P).
      { induction P as [|k P IH]; intro K; [exists []; auto|].
        destruct (K k (or_introl eq_refl)) as [x Ex]. destruct IH as (xs & E1 & E2); [intros; apply K; right; auto|].
        exists (x :: xs). cbn [map_res]. unfold getattr at 1. rewrite Ex. cbn [bind]. rewrite E1. cbn [bind map].
        rewrite E2, Ex. auto. }
      assert (A2 : forall qs, (forall P, In P qs -> In P ps) ->
                   exists vs, map_res (fun P => do vs <- map_res (getattr d) P; Ok (P, vs)) qs = Ok vs /\
                     map fst vs = qs /\ forall P xs, In (P, xs) vs -> map Some xs = map (attr d) P).
      { induction qs as [|Q qs IH]; intro K; [exists []; split; [reflexivity|split; [reflexivity|intros ? ? []]]|].
        destruct (A1 Q) as (xs & E1 & E2); [intros k Hk; exact (HA ps Q k Eps (K Q (or_introl eq_refl)) Hk)|].
        destruct IH as (vs & E3 & E4 & E5); [intros; apply K; right; auto|].
        exists ((Q, xs) :: vs). cbn [map_res]. rewrite E1. cbn [bind]. rewrite E3. cbn [bind map fst]. rewrite E4.
        split; [reflexivity|]. split; [reflexivity|]. intros P ys [E|Hin]; [injection E as <- <-; exact E2|eauto]. }
      destruct (A2 ps (fun _ h => h)) as (vs & E1 & E2 & E3). rewrite E1. cbn [bind].
      eexists. split; [reflexivity|]. cbn. rewrite HP.
      repeat split; auto; try discriminate. intros qs _ E. injection E as <-. eauto.
    + eexists. split; [reflexivity|]. cbn. repeat split; auto. discriminate.
  - eexists. split; [reflexivity|]. cbn. split; [reflexivity|]. split; [exact HN|]. split.
    + destruct (frozen d) eqn:Hf; [|reflexivity].
      destruct (history_described ptd f a d0 us d H0 Hu Hf) as [-> _]. reflexivity.
    + split; [reflexivity|]. intros ps _ E. discriminate E.
Qed.

(** Reported parametrizations are the accepted ones. *)
Theorem C55_parametrizations : forall f ps, parametrizations f = Some ps -> ps = sets f /\ (1 < List.length ps)%nat.
Proof. intros f ps. destruct f; cbn; intro H; try discriminate H; injection H as <-; (split; [reflexivity|cbn; lia]). Qed.
(** Four families accept alternatives that they do not report. *)
Theorem C55_parametrizations_refuted : forall f,
  (parametrizations f = None /\ (1 < List.length (sets f))%nat) <->
  In f [Rice; SkewNormal; SkewStudentT; ZeroInflatedNegativeBinomial].
Proof.
  intro f. split.
  - intros [H L]. destruct f; try discriminate H; cbn in L; try lia; cbn; tauto.
  - cbn [In]. intros [<-|[<-|[<-|[<-|[]]]]]; (split; [reflexivity|cbn; lia]).
Qed.

(** Bounds are shown exactly, infinities as text, except that tiny ones are shown as 0. *)
Theorem C55_format : forall v,
  format_support_value v = match v with
    | PInf => Str "inf" | NInf => Str "-inf"
    | _ => if Rlt_dec 0 (Rabs match v with Fin r => r | _ => 0 end) then
             if Rlt_dec (Rabs match v with Fin r => r | _ => 0 end) (1 / 10000000000) then Val (Fin 0) else Val v
           else Val v
    end.
Proof.
  destruct v as [r| | |]; try reflexivity; cbn [format_support_value].
  - destruct (Rltb_spec 0 (Rabs r)), (Rltb_spec (Rabs r) (1 / 10000000000)); cbn [andb];
      destruct (Rlt_dec 0 (Rabs r)), (Rlt_dec (Rabs r) (1 / 10000000000)); try reflexivity; contradiction.
  - destruct (Rlt_dec 0 (Rabs 0)) as [H|H]; [|reflexivity]. rewrite Rabs_R0 in H. lra.
Qed.
(** A Uniform on a tiny interval is described as having support (0, 0). *)
Theorem C55_format_refuted : forall ptd, exists d i,
  construct ptd Uniform (just ["lower"; "upper"] (fun k => if String.eqb k "lower" then 0 else 1 / 100000000000)) = Ok d /\
  frozen d = true /\ supp d = (Fin 0, Fin (1 / 100000000000)) /\
  info Uniform None d = Ok i /\ i_support i = (Val (Fin 0), Val (Fin 0)).
Proof.
  intro ptd. eexists; eexists. split; [reflexivity|]. split; [reflexivity|]. split; [reflexivity|].
  split; [reflexivity|]. cbn [i_support supp fst snd]. f_equal; cbn.
  - rewrite Rabs_R0. destruct (Rltb_spec 0 0); [lra|]. reflexivity.
  - rewrite Rabs_pos_eq by lra. destruct (Rltb_spec 0 (1 / 100000000000)); [|lra].
    destruct (Rltb_spec (1 / 100000000000) (1 / 10000000000)); [|lra]. reflexivity.
Qed.
Example C55_info_example : forall ptd, exists d0 d i,
  construct ptd Normal (just [] (fun _ => 0)) = Ok d0 /\ updates Normal d0 [[Some (Fin 1); Some (Fin 2)]] = Ok d /\
  frozen d = true /\ params_dict d = Some [("mu", Some (Fin 1)); ("sigma", Some (Fin 2))] /\
  info Normal None d = Ok i /\ exists vs, i_values i = Some vs /\ In (["mu"; "sigma"], [Fin 1; Fin 2]) vs.
Proof.
  intro ptd. eexists; eexists; eexists. split; [reflexivity|]. split; [reflexivity|]. split; [reflexivity|].
  split; [reflexivity|]. split; [reflexivity|]. eexists. split; [reflexivity|]. left. reflexivity.
Qed.

Print Assumptions C54_find.
Print Assumptions C54_bounded_missed_refuted.
Print Assumptions C54_get.
Print Assumptions C54_misnamed_refuted.
Print Assumptions C54_category_supports.
Print Assumptions C55_params_dict.
Print Assumptions C55_info.
Print Assumptions C55_format.
