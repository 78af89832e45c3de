(** C56: every method of an instance speaks about the same law. *)
From Coq Require Import List Bool String Reals Lra Lia Arith Permutation.
From Verif Require Import Base XR FamModel FamSpec FamProofs FamHistory FamProps CatModel EvalTable EvalModel EvalSpec.
Import ListNotations.
Open Scope R_scope.
Open Scope string_scope.

Lemma args_of f m w d x : wrap f m = Some w ->
  library w = fst (law f) /\ target w = m /\ bind_args w d x = Ok (query m x ++ map (attr d) (snd (law f)))%list.
Proof.
  intro H. destruct f, m; cbn in H; try discriminate H; injection H as <-; (split; [reflexivity|split; [reflexivity|]]);
    cbn; reflexivity.
Qed.

(** Every method that a family defines asks the library for that very quantity, of the family's law, at the query point and
    with the current parameters in the library's order. The density of a zero-inflated family is treated below. *)
Theorem C56_same_law : forall lib mode f m d x,
  wrap f m <> None -> m <> Mrvs -> ~ (m = Mpdf /\ zero_inflated f) ->
  eval lib mode f m d x = Ok (lib (fst (law f)) m (query m x ++ map (attr d) (snd (law f)))%list).
Proof.
  intros lib mode f m d x Hw Hr Hz. destruct (wrap f m) as [w|] eqn:E; [clear Hw|congruence].
  destruct (args_of f m w d x E) as (L & T & B).
  assert (R : run lib w d x = Ok (lib (fst (law f)) m (query m x ++ map (attr d) (snd (law f)))%list)).
  { unfold run. rewrite B. cbn [bind]. rewrite L, T. reflexivity. }
  assert (O : own lib f m d x = Some (Ok (lib (fst (law f)) m (query m x ++ map (attr d) (snd (law f)))%list))).
  { unfold own. rewrite E. destruct m; rewrite R; try reflexivity. cbn [bind]. unfold after_pdf.
    destruct f; try reflexivity; exfalso; apply Hz; split; try reflexivity; unfold zero_inflated; cbn [In]; tauto. }
  destruct m; try congruence; unfold eval, pdf, cdf, ppf, sf; rewrite O; reflexivity.
Qed.

(** Random draws come from the same law, with the requested size and a generator made from the requested seed. *)
Theorem C56_rvs : forall Size Seed Gen Sample (rng : Seed -> Gen) lib f d (size : Size) seed,
  rvs Size Seed Gen Sample rng lib f d size seed =
  Ok (lib (fst (law f)) Mrvs (map (attr d) (snd (law f))) size (rng seed)).
Proof.
  intros. unfold rvs. destruct (wrap f Mrvs) as [w|] eqn:E; [|destruct f; discriminate E].
  destruct (args_of f Mrvs w d NaN E) as (L & T & B). rewrite B, L, T. reflexivity.
Qed.

(** Densities of zero-inflated families: the library's value at the points of the support, zero below it (and above the
    number of trials); at infinity and nan, zero for the binomial and nan for the other two. *)
Theorem C56_zero_inflated_pdf : forall lib mode f d x n, zero_inflated f ->
  (f = ZeroInflatedBinomial -> attr d "n" = Some (Fin n)) ->
  eval lib mode f Mpdf d (Fin x) =
    Ok (if Rlt_dec x 0 then Fin 0 else
        match f with ZeroInflatedBinomial => if Rlt_dec n x then Fin 0
                                             else lib (fst (law f)) Mpdf (Some (Fin x) :: map (attr d) (snd (law f)))
        | _ => lib (fst (law f)) Mpdf (Some (Fin x) :: map (attr d) (snd (law f))) end) /\
  forall y, In y [PInf; NInf; NaN] ->
    eval lib mode f Mpdf d y = Ok match f with ZeroInflatedBinomial => Fin 0 | _ => NaN end.
Proof.
  intros lib mode f d x n Hz Hn.
  assert (E : forall y, eval lib mode f Mpdf d y =
            Ok (after_pdf f d y (lib (fst (law f)) Mpdf (Some y :: map (attr d) (snd (law f)))))).
  { intro y. unfold eval, pdf, own. destruct (wrap f Mpdf) as [w|] eqn:W; [|destruct f; discriminate W].
    destruct (args_of f Mpdf w d y W) as (L & T & B). unfold run. rewrite B, L, T. reflexivity. }
  split.
  - rewrite E. f_equal. unfold zero_inflated in Hz. cbn [In] in Hz.
    destruct Hz as [<-|[<-|[<-|[]]]]; unfold after_pdf.
    + rewrite Hn by reflexivity. cbn [np_float64 xltb xisfinite negb orb].
      destruct (Rltb_spec x 0), (Rlt_dec x 0); try contradiction; cbn [orb]; [reflexivity|].
      destruct (Rltb_spec n x), (Rlt_dec n x); try contradiction; reflexivity.
    + cbn [xltb xisfinite negb]. destruct (Rltb_spec x 0), (Rlt_dec x 0); try contradiction; reflexivity.
    + cbn [xltb xisfinite negb]. destruct (Rltb_spec x 0), (Rlt_dec x 0); try contradiction; reflexivity.
  - intros y Hy. rewrite E. f_equal. unfold zero_inflated in Hz. cbn [In] in Hz, Hy.
    destruct Hz as [<-|[<-|[<-|[]]]]; destruct Hy as [<-|[<-|[<-|[]]]]; unfold after_pdf; cbn [xltb xisfinite negb];
      rewrite ?orb_true_r; reflexivity.
Qed.

(** The law is completely determined by one of the accepted parameter sets, and different families have different laws. *)
Theorem C56_law_complete : forall f,
  (exists P, In P (sets f) /\ Permutation (snd (law f)) P) /\ NoDup (snd (law f)) /\
  forall g, fst (law f) = fst (law g) -> f = g.
Proof.
  intro f. split; [|split].
  - destruct f; try (exists (snd (law _)); split; [cbn; tauto|apply Permutation_refl]).
    all: match goal with |- exists P, In P (sets ?g) /\ Permutation ?l P =>
      first [exists (canonical g); split; [left; reflexivity|cbn; solve [repeat (apply perm_skip || apply perm_swap || apply Permutation_refl)|
                 apply Permutation_cons_app with (l1 := [_; _]); apply Permutation_refl|
                 apply Permutation_sym; apply Permutation_cons_app with (l1 := [_; _]); apply Permutation_refl|
                 apply (Permutation_app_comm [_; _] [_; _])]]
            |exists (nth 1 (sets g) []); split; [right; left; reflexivity|cbn; repeat (apply perm_skip || apply perm_swap || apply Permutation_refl)]] end.
  - destruct f; cbn; repeat (apply NoDup_cons; [cbn; intro K; repeat (destruct K as [K|K]; [discriminate K|]); exact K|]); apply NoDup_nil.
  - intro g. destruct f, g; cbn; intro H; try reflexivity; discriminate H.
Qed.

(** Which methods a family computes itself. *)
Theorem C56_methods : forall f m,
  wrap f m <> None <->
  core m \/
  (m = Mmode /\ ~ In f [ExGaussian; Rice; SkewNormal; SkewStudentT]) \/
  (In m [Mlmoment1; Mlmoment2; Mlmoment3; Mlmoment4] /\ f <> DiscreteWeibull) \/
  (In m [Msf; Misf; Mlogcdf; Mlogsf; Mlogisf] /\ In f [Beta; BetaScaled; Normal]) \/
  (In m [Mlogcdf; Mlogsf] /\ f = Cauchy).
Proof.
  intros f m. split.
  - intro H. destruct m; try (left; unfold core; cbn [In]; tauto); right.
    all: try (left; split; [reflexivity|]; intro K; cbn [In] in K;
              destruct K as [<-|[<-|[<-|[<-|[]]]]]; apply H; reflexivity).
    all: right; try (left; split; [cbn [In]; tauto|intros ->; apply H; reflexivity]).
    all: right; destruct f; try (exfalso; apply H; reflexivity);
      first [left; split; cbn [In]; tauto|right; split; [cbn [In]; tauto|reflexivity]].
  - intros [K|[[-> K]|[[K N]|[[K N]|[K ->]]]]].
    + unfold core in K. cbn [In] in K. repeat (destruct K as [<-|K]; [destruct f; discriminate|]). contradiction.
    + destruct f; try discriminate; exfalso; apply K; cbn [In]; tauto.
    + cbn [In] in K. repeat (destruct K as [<-|K]; [destruct f; try discriminate; congruence|]). contradiction.
    + cbn [In] in K, N. repeat (destruct N as [<-|N]; [repeat (destruct K as [<-|K]; [discriminate|]); contradiction|]).
      contradiction.
    + cbn [In] in K. destruct K as [<-|[<-|[]]]; discriminate.
Qed.

(** Inherited methods are derived from the family's own: complement, logarithm and mirrored quantile; a mode that is not
    implemented is searched for in continuous families, and nothing else is available. *)
Theorem C56_inherited : forall lib mode f m d x, wrap f m = None ->
  eval lib mode f m d x =
  match m with
  | Msf => do c <- eval lib mode f Mcdf d x; Ok (xsub (Fin 1) c)
  | Mlogcdf => do c <- eval lib mode f Mcdf d x; Ok (xlog c)
  | Mlogsf => do c <- eval lib mode f Msf d x; Ok (xlog c)
  | Misf => eval lib mode f Mppf d (xsub (Fin 1) x)
  | Mmode => Ok (mode (eval lib mode f Mpdf d) (eval lib mode f Mppf d) (supp d))
  | _ => Err RuntimeError
  end.
Proof.
  intros lib mode f m d x H.
  assert (O : own lib f m d x = None) by (unfold own; rewrite H; reflexivity).
  destruct m; unfold eval, pdf, cdf, ppf, sf; rewrite ?O; cbn [or_else]; try reflexivity.
  destruct f; try discriminate H; reflexivity.
Qed.

(* ---------------- canonical parameters decide ---------------- *)
Definition derived (f : family) (d : dist) : Prop :=
  match f with
  | NegativeBinomial | ZeroInflatedNegativeBinomial =>
      exists mu al, attr d "mu" = Some mu /\ attr d "alpha" = Some al /\ attr d "n" = Some al /\
                    attr d "p" = Some (xdiv al (xadd mu al))
  | _ => True
  end.
Lemma update_derived f d u d' : In (names d) (sets f) -> update f d u = Ok d' -> derived f d'.
Proof.
  intros HN H. destruct d as [nd pd ad sd fd]; cbn in HN.
  destruct f; try exact I; split_list u; try discriminate H; cbn [update] in H; injection H as <-;
    (cbn [sets In] in HN; repeat (destruct HN as [HN|HN]; [subst nd|]); try contradiction HN);
    unfold derived; unfold_updates; cbnU; eauto 8.
Qed.
Lemma construct_derived ptd f a d : construct ptd f a = Ok d -> frozen d = true -> derived f d.
Proof.
  intros H Hf.
  destruct f; try exact I; revert H; unfold_construct; cbn [signature sets];
    intro H; split_args a; cbnH H; unfold pyand in H; crunch H; cbnH H; try discriminate H; injection H as <-; try discriminate Hf;
    unfold derived; unfold_updates; cbnU; eauto 8.
Qed.
Lemma history_derived ptd f a d0 us d :
  construct ptd f a = Ok d0 -> updates f d0 us = Ok d -> frozen d = true -> derived f d.
Proof.
  intros H0. pose proof (construct_names ptd f a d0 H0) as HN.
  assert (HD : frozen d0 = true -> derived f d0) by (eapply construct_derived; eauto).
  clear H0. revert d0 HN HD. induction us as [|u us IH]; simpl; intros d0 HN HD H Hf.
  - injection H as <-. auto.
  - destruct (update f d0 u) as [d1|] eqn:E; [|discriminate].
    apply (IH d1); auto.
    + rewrite (update_names _ _ _ _ E). exact HN.
    + intros _. exact (update_derived f d0 u d1 HN E).
Qed.

(** Two instances of a family, built and updated in any way and in any parametrization, answer every query alike as soon
    as their canonical parameters are equal. *)
Theorem C56_canonical_decides : forall ptd f a d0 us d b e0 vs e,
  construct ptd f a = Ok d0 -> updates f d0 us = Ok d -> frozen d = true ->
  construct ptd f b = Ok e0 -> updates f e0 vs = Ok e -> frozen e = true ->
  (forall k, In k (canonical f) -> attr d k = attr e k) ->
  (forall lib mode m x, m <> Mrvs -> wrap f m <> None -> eval lib mode f m d x = eval lib mode f m e x) /\
  (forall Size Seed Gen Sample (rng : Seed -> Gen) lib (size : Size) seed,
     rvs Size Seed Gen Sample rng lib f d size seed = rvs Size Seed Gen Sample rng lib f e size seed).
Proof.
  intros ptd f a d0 us d b e0 vs e H0 Hu Hd G0 Gu He K.
  assert (S : map (attr d) (snd (law f)) = map (attr e) (snd (law f))).
  { pose proof (history_derived ptd f a d0 us d H0 Hu Hd) as D1.
    pose proof (history_derived ptd f b e0 vs e G0 Gu He) as D2.
    apply map_ext_in. intros k Hk.
    destruct f; cbn in Hk; unfold derived in D1, D2; unfold canonical in K; cbn [sets hd] in K;
      repeat (destruct Hk as [<-|Hk]; [|]); try contradiction Hk;
      try (apply K; cbn [In]; tauto);
      destruct D1 as (m1 & l1 & A1 & A2 & A3 & A4), D2 as (m2 & l2 & B1 & B2 & B3 & B4);
      assert (E1 : attr d "mu" = attr e "mu") by (apply K; cbn [In]; tauto);
      assert (E2 : attr d "alpha" = attr e "alpha") by (apply K; cbn [In]; tauto); congruence. }
  split.
  - intros lib mode m x Hm Hw.
    destruct (wrap f m) as [w|] eqn:W; [|congruence].
    assert (N : forall t, own lib f m t x = Some (match m with
              | Mpdf => Ok (after_pdf f t x (lib (fst (law f)) m (query m x ++ map (attr t) (snd (law f)))%list))
              | _ => Ok (lib (fst (law f)) m (query m x ++ map (attr t) (snd (law f)))%list) end)).
    { intro t. destruct (args_of f m w t x W) as (L & T & B). unfold own. rewrite W. unfold run. rewrite B, L, T.
      destruct m; reflexivity. }
    assert (AP : forall y, after_pdf f d x y = after_pdf f e x y).
    { intro y. unfold after_pdf. destruct f; try reflexivity. rewrite (K "n"); [reflexivity|cbn; tauto]. }
    destruct m; try congruence; unfold eval, pdf, cdf, ppf, sf; rewrite !N, S; cbn [or_else]; rewrite ?AP; reflexivity.
  - intros. rewrite !C56_rvs. rewrite S. reflexivity.
Qed.

Example C56_canonical_example : forall ptd, exists d0 d e0,
  construct ptd Normal (just ["mu"; "sigma"] (fun _ => 3)) = Ok d0 /\
  updates Normal d0 [[Some (Fin 1); Some (Fin 2)]] = Ok d /\ frozen d = true /\
  construct ptd Normal (just ["mu"; "sigma"] (fun k => if String.eqb k "mu" then 1 else 2)) = Ok e0 /\ frozen e0 = true /\
  forall lib mode x, eval lib mode Normal Mpdf d (Fin x) = Ok (lib "normal" Mpdf [Some (Fin x); Some (Fin 1); Some (Fin 2)]) /\
    eval lib mode Normal Mpdf d (Fin x) = eval lib mode Normal Mpdf e0 (Fin x).
Proof.
  intro ptd. eexists; eexists; eexists. repeat (split; [reflexivity|]). intros. split; reflexivity.
Qed.

Print Assumptions C56_same_law.
Print Assumptions C56_rvs.
Print Assumptions C56_zero_inflated_pdf.
Print Assumptions C56_law_complete.
Print Assumptions C56_methods.
Print Assumptions C56_inherited.
Print Assumptions C56_canonical_decides.
