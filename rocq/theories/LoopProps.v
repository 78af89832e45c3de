(** Property theorems for the fits behind Roulette, combine_roulette and QuartileInt: C75. *)
From Coq Require Import List Bool String Reals ZArith Lra Lia FunctionalExtensionality.
From Verif Require Import Base RLists XR FamModel FamSpec FamProofs FamHistory FamProps FitModel LawModel OptModel OptProps OptFamProps
  SelProps SampleModel CatModel ApiModel ApiProps LoopModel.
Import ListNotations.
Open Scope R_scope.
Open Scope string_scope.

Lemma bind_inv {A B} (r : res A) (k : A -> res B) b : bind r k = Ok b -> exists a, r = Ok a /\ k a = Ok b.
Proof. destruct r; cbn; [eauto|discriminate]. Qed.

(* ---------------- which candidate is returned ---------------- *)
(** What is compared: the loss of each candidate that was fitted; the others count as infinite. *)
Definition loss_of {D} (loss : candidate D -> D -> xr) (p : candidate D * option D) : xr :=
  match snd p with Some d => loss (fst p) d | None => PInf end.
Definition is_fitted {D} (p : candidate D * option D) : bool := match snd p with Some _ => true | None => false end.
Lemma chosen_first {D} (loss : candidate D -> D -> xr) (ps : list (candidate D * option D)) :
  match fst (fold_left (pass (fun a b => xltb b a) is_fitted (loss_of loss)) ps (None, PInf)) with
  | Some p => is_fitted p = true /\ first_minimiser (loss_of loss) ps p
  | None => Forall (fun p => loss_of loss p = NaN \/ loss_of loss p = PInf) ps
  end.
Proof.
  pose proof (pass_min is_fitted (loss_of loss) ps) as P. destruct (fst _) as [p|].
  - destruct P as [F P]. split; [exact F|].
    assert (E : ranked_loss is_fitted (loss_of loss) = loss_of loss).
    { apply functional_extensionality. intros [c [d|]]; reflexivity. }
    rewrite E in P. exact P.
  - apply Forall_forall. intros [c [d|]] H; [apply P; auto|right; reflexivity].
Qed.
(** [out] is the outcome of each candidate, in order. [r] is the first of those with the smallest loss; a candidate whose
    loss is nan or infinite is never returned. *)
Definition best_of {D} (one : candidate D -> res (option D)) (loss : candidate D -> D -> xr) (cs : list (candidate D)) (r : option D) : Prop :=
  exists out, Forall2 (fun c o => one c = Ok o) cs out /\
    match r with
    | Some d => exists c, first_minimiser (loss_of loss) (combine cs out) (c, Some d)
    | None => Forall (fun p => loss_of loss p = NaN \/ loss_of loss p = PInf) (combine cs out)
    end.
Definition drop {D} (st : option (candidate D * option D) * xr) : option D := match fst st with Some p => snd p | None => None end.

Section Choice.
Variables (D : Type) (extra : extras) (x_min x_max : R) (mean std : xr).
Lemma epdf_loop_pass : forall (cs : list (candidate D)) st st' ps, epdf_loop extra x_min x_max mean std cs st = Ok st' ->
  best st = drop ps -> old_loss st = snd ps ->
  exists out, Forall2 (fun c o => epdf_one extra x_min x_max mean std c = Ok o) cs out /\
    best st' = drop (fold_left (pass (fun a b => xltb b a) is_fitted (loss_of c_cost)) (combine cs out) ps).
Proof.
  induction cs as [|c cs IH]; intros st st' ps H B L; cbn [epdf_loop] in H.
  - injection H as <-. exists []. split; [constructor|exact B].
  - apply bind_inv in H. destruct H as (o & O & H).
    destruct (IH _ _ (pass (fun a b => xltb b a) is_fitted (loss_of c_cost) ps (c, o)) H) as (out & F & E).
    + unfold pass, is_fitted, loss_of, loss_update. cbn [fst snd]. destruct o as [d|]; [|exact B]. rewrite <- L.
      destruct (xltb (c_cost c d) (old_loss st)); [reflexivity|exact B].
    + unfold pass, is_fitted, loss_of, loss_update. cbn [fst snd]. destruct o as [d|]; [|exact L]. rewrite <- L.
      destruct (xltb (c_cost c d) (old_loss st)); [reflexivity|exact L].
    + exists (o :: out). split; [constructor; auto|]. exact E.
Qed.
End Choice.
Lemma quartile_loop_pass D extra q1 q2 q3 : forall (cs : list (candidate D)) e fit r ps,
  quartile_loop extra q1 q2 q3 cs e fit = Ok r -> fit = drop ps -> e = snd ps ->
  exists out, Forall2 (fun c o => quartile_one extra q1 q2 q3 c = Ok o) cs out /\
    r = drop (fold_left (pass (fun a b => xltb b a) is_fitted (loss_of (quartile_error q1 q3))) (combine cs out) ps).
Proof.
  induction cs as [|c cs IH]; intros e fit r ps H B L; cbn [quartile_loop] in H.
  - injection H as <-. exists []. split; [constructor|exact B].
  - apply bind_inv in H. destruct H as (o & O & H).
    assert (X : exists e' fit', quartile_loop extra q1 q2 q3 cs e' fit' = Ok r /\
      fit' = drop (pass (fun a b => xltb b a) is_fitted (loss_of (quartile_error q1 q3)) ps (c, o)) /\
      e' = snd (pass (fun a b => xltb b a) is_fitted (loss_of (quartile_error q1 q3)) ps (c, o))).
    { unfold pass, is_fitted, loss_of. cbn [fst snd]. destruct o as [d|]; [|eauto]. cbv zeta in H. rewrite <- L.
      destruct (xltb (quartile_error q1 q3 c d) e); eauto. }
    destruct X as (e' & fit' & H' & B' & L'). destruct (IH _ _ _ _ H' B' L') as (out & F & E).
    exists (o :: out). split; [constructor; auto|exact E].
Qed.
Lemma choice D (one : candidate D -> res (option D)) loss cs out r :
  Forall2 (fun c o => one c = Ok o) cs out ->
  r = drop (fold_left (pass (fun a b => xltb b a) is_fitted (loss_of loss)) (combine cs out) (None, PInf)) -> best_of one loss cs r.
Proof.
  intros F E. exists out. split; [exact F|]. pose proof (chosen_first loss (combine cs out)) as P. unfold drop in E.
  destruct (fst _) as [[c [d|]]|].
  - cbn [snd] in E. subst r. destruct P as [_ P]. eauto.
  - destruct P as [P _]. discriminate.
  - subst r. exact P.
Qed.
(** Roulette and combine_roulette: every candidate is fitted on its own; the one returned is the first with the smallest
    least-squares cost. *)
Theorem C75_roulette_best : forall D extra x_min x_max mean std (cs : list (candidate D)) r,
  run_epdf extra x_min x_max mean std cs = Ok r -> best_of (epdf_one extra x_min x_max mean std) c_cost cs r.
Proof.
  intros D extra x_min x_max mean std cs r H. unfold run_epdf in H. apply bind_inv in H. destruct H as (st & H & E). injection E as <-.
  destruct (epdf_loop_pass D extra x_min x_max mean std cs new_loss st (None, PInf) H eq_refl eq_refl) as (out & F & E).
  eapply choice; eauto.
Qed.
(** QuartileInt: the one returned is the first with the smallest relative error in the mass between the outer quartiles. *)
Theorem C75_quartile_best : forall D extra q1 q2 q3 (cs : list (candidate D)) r,
  run_quartile extra q1 q2 q3 cs = Ok r -> best_of (quartile_one extra q1 q2 q3)
    (fun c d => let below_q1 := c_cdf c d (if c_discrete c then Fin (q1 - 1) else Fin q1) in
                let below_q3 := c_cdf c d (Fin q3) in
                xabs (xmul (xdiv (xsub (xsub below_q3 below_q1) (Fin 0.5)) (Fin 0.5)) (Fin 100))) cs r.
Proof.
  intros D extra q1 q2 q3 cs r H.
  assert (L : (fun (c : candidate D) d => xabs (xmul (xdiv (xsub (xsub (c_cdf c d (Fin q3)) (c_cdf c d (if c_discrete c then Fin (q1 - 1) else Fin q1))) (Fin 0.5)) (Fin 0.5)) (Fin 100)))
            = quartile_error q1 q3).
  { apply functional_extensionality. intro c. apply functional_extensionality. intro d. unfold quartile_error, relative_error, computed_mass. destruct (c_discrete c); reflexivity. }
  cbv zeta. rewrite L. clear L. destruct (quartile_loop_pass D extra q1 q2 q3 cs _ _ r (None, PInf) H eq_refl eq_refl) as (out & F & E).
  eapply choice; eauto.
Qed.
(** An exception while one candidate is fitted ends the call: no other candidate is returned instead. *)
Theorem C75_exception_ends : forall D extra x_min x_max mean std q1 q2 q3 (l1 l2 : list (candidate D)) c e,
  (Forall (fun c => exists o, epdf_one extra x_min x_max mean std c = Ok o) l1 -> epdf_one extra x_min x_max mean std c = Err e ->
     run_epdf extra x_min x_max mean std (l1 ++ c :: l2) = Err e) /\
  (Forall (fun c => exists o, quartile_one extra q1 q2 q3 c = Ok o) l1 -> quartile_one extra q1 q2 q3 c = Err e ->
     run_quartile extra q1 q2 q3 (l1 ++ c :: l2) = Err e).
Proof.
  intros D extra x_min x_max mean std q1 q2 q3 l1 l2 c e. split; intros F E.
  - unfold run_epdf.
    assert (G : forall st, epdf_loop extra x_min x_max mean std (l1 ++ c :: l2) st = Err e).
    { induction F as [|c' l (o & O) F IH]; intro st; cbn [app epdf_loop]; [rewrite E; reflexivity|]. rewrite O. cbn [bind]. apply IH. }
    rewrite G. reflexivity.
  - unfold run_quartile. generalize (None : option D) PInf.
    induction F as [|c' l (o & O) F IH]; intros fit err; cbn [app quartile_loop]; [rewrite E; reflexivity|]. rewrite O. cbn [bind].
    destruct o as [d|]; [|apply IH]. cbv zeta. destruct (xltb _ _); apply IH.
Qed.

(* ---------------- the parameters the user fixed ---------------- *)
Section Fixed.
Variables (ptd : xr -> xr -> xr * xr) (eg : R) (gam : R -> xr) (opt : family -> dist -> R -> R -> res dist).
Let cand f search cost discrete cdf := family_candidate ptd eg gam opt f search cost discrete cdf.
Let ob f := family_object ptd eg gam opt f.

(** The user's text for one class: the parameters [S], with the values [v]. *)
Definition fixed_at (S : list string) (v : string -> R) : list (string * xr) := map (fun k => (k, Fin (v k))) S.
Definition isfin (x : xr) : Prop := exists r, x = Fin r.
(** What is assumed of scipy: each vector it tries, and the one it returns, has one finite entry for each parameter that is
    not among [S]. *)
Definition searches_free (S : list string) (search : dist -> list (list xr) * list xr) : Prop :=
  forall d, Forall (fun x => List.length x = List.length (filter (fun k => negb (existsb (String.eqb k) S)) (names d)) /\ Forall isfin x)
    (snd (search d) :: fst (search d)).

Lemma dict_get_fixed S v : dict_get (fixed_at S v) = just S v.
Proof.
  apply functional_extensionality. intro k. unfold just, fixed_at. induction S as [|s S IH]; cbn; [reflexivity|].
  destruct (String.eqb_spec k s); [subst; reflexivity|exact IH].
Qed.
Lemma fixed_known f S v : Forall (fun k => In k (signature f)) S -> known_keywords f (fixed_at S v) = true.
Proof.
  intro H. unfold known_keywords, fixed_at. apply forallb_forall. intros [k x] I. apply in_map_iff in I. destruct I as (k' & E & I).
  injection E as <- _. cbn [fst]. apply existsb_in. rewrite Forall_forall in H. auto.
Qed.
Lemma reparametrize_fixed f S v d d0 : f <> BetaScaled -> Forall (fun k => In k (signature f)) S -> construct ptd f (just S v) = Ok d0 ->
  reparametrize ptd f (fixed_at S v) d = (reconfigure f d d0, Ok tt).
Proof.
  intros N K H. unfold reparametrize. rewrite (fixed_known f S v K). cbn [negb]. rewrite dict_get_fixed.
  destruct f; try (exfalso; apply N; reflexivity); rewrite H; reflexivity.
Qed.
Lemma refit_keeps f search mean sigma d d' : opt_updates opt -> In (names d) (sets f) ->
  (forall d2, names d2 = names d -> Forall (fun x => List.length x = List.length (free_names (attr d) (names d))) (snd (search d2) :: fst (search d2))) ->
  refit (ob f) search mean sigma d = (d', Ok tt) ->
  exists kw dl d2, reparametrize ptd f kw dl = (d', Ok tt) /\ map fst kw = names d /\ names d2 = names d /\
    (forall k y, In k (names d) -> attr d k = Some y -> dict_get kw k = Some y) /\
    Forall2 (fun k y => dict_get kw k = Some y) (free_names (attr d) (names d)) (snd (search d2)).
Proof using.
  intros HO W HS H. unfold refit in H.
  destruct (o_fit (ob f) mean sigma d) as [d2 [[]|]] eqn:E; cbn [andthen] in H; [|discriminate].
  pose proof (C32_families_behave ptd eg gam opt f HO) as B.
  destruct (b_fit _ _ B _ _ _ _ W E) as (W2 & _ & N2 & L2).
  specialize (HS d2 N2). destruct (search d2) as [vis x] eqn:SE. cbn [fst snd] in HS.
  cbn [ob family_object o_names o_nparams o_attr] in N2, L2. 
  cbn [ob family_object o_names o_attr] in H.
  change (o_nparams (ob f) d2) with (List.length (params d2)) in H. rewrite L2, N2 in H.
  destruct (optimise_keeps (ob f) _ B (attr d) (names d) x vis d2 d') as (kw & dl & A1 & A2 & A3 & A4); auto.
  - exact (b_nodup _ _ B _ W).
  - exists kw, dl, d2. rewrite SE. cbn [snd]. auto.
Qed.
Lemma new_instance_names f : In (names (new_instance ptd f)) (sets f).
Proof using.
  unfold new_instance. destruct (construct ptd f (fun _ => None)) as [d|] eqn:E; [eapply construct_names; eauto|].
  exfalso. destruct f; discriminate.
Qed.
Lemma refit_fixed f S v search mean sigma d d0 d' : ig_formula ptd -> opt_updates opt -> f <> BetaScaled -> f <> TruncatedNormal ->
  construct ptd f (just S v) = Ok d0 -> frozen d0 = false -> searches_free S search ->
  refit (ob f) search mean sigma (reconfigure f d d0) = (d', Ok tt) ->
  exists v', (forall k, In k S -> In k (names d') -> v' k = v k) /\ names d' = names d0 /\
    (valid f (names d0) v' -> frozen d' = true /\ params d' = map (fun k => Some (Fin (readback f k (v' k)))) (names d0)).
Proof using.
  intros Hp HO N1 N2 HC HF HS H. destruct (construct_unfrozen _ _ _ _ HC HF) as [HP HA]. specialize (HA N2 N1).
  assert (FN : free_names (attr d0) (names d0) = filter (fun k => negb (existsb (String.eqb k) S)) (names d0)).
  { unfold free_names. apply filter_ext_in. intros k Hk. rewrite (HA k Hk). unfold just. destruct (existsb (String.eqb k) S); reflexivity. }
  destruct (refit_keeps f search mean sigma (reconfigure f d d0) d' HO HP) as (kw & dl & d2 & A1 & A2 & A3 & A4 & A5); [|exact H|].
  { intros d2 E. cbn [reconfigure names attr] in E |- *. rewrite FN. specialize (HS d2). rewrite E in HS.
    eapply Forall_impl; [|exact HS]. intros x [L _]. exact L. }
  cbn [reconfigure names attr] in A2, A3, A4, A5. rewrite FN in A5.
  specialize (HS d2). inversion HS as [|? ? [_ XF] _]; subst. clear HS.
  pose (v' := fun k => match dict_get kw k with Some (Fin r) => r | _ => 0 end).
  assert (GET : dict_get kw = just (names d0) v').
  { apply functional_extensionality. intro k. unfold just. destruct (existsb (String.eqb k) (names d0)) eqn:Ex.
    - apply existsb_in in Ex.
      assert (X : exists r, dict_get kw k = Some (Fin r)).
      { destruct (existsb (String.eqb k) S) eqn:ES.
        - exists (v k). apply A4; [exact Ex|]. rewrite (HA k Ex). unfold just. rewrite ES. reflexivity.
        - assert (IF : In k (filter (fun k => negb (existsb (String.eqb k) S)) (names d0))) by (apply filter_In; rewrite ES; auto).
          clear - A5 XF IF. revert XF. induction A5 as [|a y l l' Hy A5 IH]; intro XF; [contradiction|].
          inversion XF as [|? ? [r ->] XF']; subst. destruct IF as [->|IF]; [eauto|]. auto. }
      destruct X as [r R]. unfold v'. rewrite R. reflexivity.
    - apply dict_get_none. rewrite A2. exact Ex. }
  destruct (reparametrize_construct _ _ _ _ _ N1 A1) as (c & C1 & ->). rewrite GET in C1.
  assert (NC : names c = names d0).
  { eapply construct_full_names; [exact HP| |exact C1]. apply Forall_forall. intros k Hk. unfold just.
    destruct (existsb (String.eqb k) (names d0)); reflexivity. }
  exists v'. split; [|split].
  - intros k KS KN. cbn [reconfigure names] in KN. rewrite NC in KN. unfold v'.
    rewrite (A4 k (Fin (v k)) KN); [reflexivity|]. rewrite (HA k KN). unfold just. rewrite (proj2 (existsb_in k S) KS). reflexivity.
  - exact NC.
  - intro V. destruct (C08_reads_back ptd f (names d0) v' Hp HP V) as (d3 & B1 & B2 & B3 & B4 & _).
    rewrite C1 in B1. injection B1 as <-. cbn [reconfigure frozen params]. rewrite B2. split; [apply orb_true_r|exact B4].
Qed.

(** The parameters the user fixed for a class come back unchanged in the distribution fitted to the chips, and those that
    were not fixed are the ones scipy chose: whenever these values are in the valid region, they are the ones reported. *)
Theorem C75_roulette_keeps_fixed : forall f S v d0 search cost discrete cdf extra x_min x_max mean std d,
  ig_formula ptd -> opt_updates opt -> f <> BetaScaled -> f <> TruncatedNormal ->
  dict_get extra (family_name f) = Some (fixed_at S v) -> Forall (fun k => In k (signature f)) S ->
  construct ptd f (just S v) = Ok d0 -> frozen d0 = false -> searches_free S search ->
  epdf_one extra x_min x_max mean std (cand f search cost discrete cdf) = Ok (Some d) ->
  exists v', (forall k, In k S -> In k (names d) -> v' k = v k) /\ names d = names d0 /\
    (valid f (names d) v' -> frozen d = true /\ params d = map (fun k => Some (Fin (readback f k (v' k)))) (names d)).
Proof using.
  intros f S v d0 search cost discrete cdf extra x_min x_max mean std d Hp HO N1 N2 HE HK HC HF HS H.
  unfold epdf_one in H. cbn [cand family_candidate c_name c_object c_start c_search c_bounds] in H. rewrite HE in H.
  change (o_reparam (family_object ptd eg gam opt f)) with (reparametrize ptd f) in H.
  rewrite (reparametrize_fixed f S v _ d0 N1 HK HC) in H. cbn [bind] in H.
  replace (String.eqb (family_name f) "BetaScaled") with false in H by (destruct f; (reflexivity || (exfalso; apply N1; reflexivity))).
  destruct (check_endpoints_silent _ _ _); [|discriminate].
  destruct (refit _ _ _ _ _) as [d' [[]|]] eqn:E; [|discriminate]. injection H as <-.
  destruct (refit_fixed f S v search mean std _ d0 d' Hp HO N1 N2 HC HF HS E) as (v' & A & B & C).
  exists v'. rewrite B. rewrite B in A. auto.
Qed.
(** The same for QuartileInt. *)
Theorem C75_quartile_keeps_fixed : forall f S v d0 search cost discrete cdf extra q1 q2 q3 d,
  ig_formula ptd -> opt_updates opt -> f <> BetaScaled -> f <> TruncatedNormal ->
  dict_get extra (family_name f) = Some (fixed_at S v) -> Forall (fun k => In k (signature f)) S ->
  construct ptd f (just S v) = Ok d0 -> frozen d0 = false -> searches_free S search ->
  quartile_one extra q1 q2 q3 (cand f search cost discrete cdf) = Ok (Some d) ->
  exists v', (forall k, In k S -> In k (names d) -> v' k = v k) /\ names d = names d0 /\
    (valid f (names d) v' -> frozen d = true /\ params d = map (fun k => Some (Fin (readback f k (v' k)))) (names d)).
Proof using.
  intros f S v d0 search cost discrete cdf extra q1 q2 q3 d Hp HO N1 N2 HE HK HC HF HS H.
  unfold quartile_one in H. cbn [cand family_candidate c_name c_object c_start c_search c_bounds] in H. rewrite HE in H.
  change (o_reparam (family_object ptd eg gam opt f)) with (reparametrize ptd f) in H.
  rewrite (reparametrize_fixed f S v _ d0 N1 HK HC) in H.
  replace (String.eqb (family_name f) "BetaScaled") with false in H by (destruct f; (reflexivity || (exfalso; apply N1; reflexivity))).
  cbn [bind] in H. destruct (check_endpoints_silent _ _ _); [|discriminate].
  destruct (refit _ _ _ _ _) as [d' [[]|]] eqn:E; [|discriminate]. injection H as <-.
  destruct (refit_fixed f S v search _ _ _ d0 d' Hp HO N1 N2 HC HF HS E) as (v' & A & B & C).
  exists v'. rewrite B. rewrite B in A. auto.
Qed.

(** TruncatedNormal: whatever bounds, mean or scale the user fixed are those of the fitted distribution, and a bound that
    was not fixed is infinite. *)
Theorem C75_truncated_keeps_fixed : forall S v search cost discrete cdf extra d mean sigma x_min x_max q1 q2 q3,
  opt_updates opt -> dict_get extra "TruncatedNormal" = Some (fixed_at S v) -> Forall (fun k => In k (signature TruncatedNormal)) S ->
  (~ In "mu" S \/ ~ In "sigma" S) -> searches_free (S ++ ["lower"; "upper"]) search ->
  let c := cand TruncatedNormal search cost discrete cdf in
  epdf_one extra x_min x_max mean sigma c = Ok (Some d) \/ quartile_one extra q1 q2 q3 c = Ok (Some d) ->
  (forall k, In k S -> attr d k = Some (Fin (v k))) /\
  (~ In "lower" S -> attr d "lower" = Some NInf) /\ (~ In "upper" S -> attr d "upper" = Some PInf).
Proof using.
  intros S v search cost discrete cdf extra d mean sigma x_min x_max q1 q2 q3 HO HE HK HI HS c H.
  assert (NTB : TruncatedNormal <> BetaScaled) by discriminate.
  destruct (construct ptd TruncatedNormal (just S v)) as [d0|e] eqn:HC; [|exfalso; revert HC; unfold_construct;
    repeat match goal with |- context [just S v ?k] => destruct (just S v k) end; cbn; discriminate].
  assert (HF : frozen d0 = false).
  { assert (Q : just S v "mu" = None \/ just S v "sigma" = None).
    { unfold just. destruct HI as [HI|HI]; [left|right]; (destruct (existsb _ S) eqn:Q; [apply existsb_in in Q; contradiction|reflexivity]). }
    revert HC. unfold_construct. intro HC. destruct Q as [Q|Q]; rewrite Q in HC;
      repeat match type of HC with context [just S v ?k] => destruct (just S v k) end; cbn in HC; injection HC as <-; reflexivity. }
  destruct (C26_bounds_stay ptd TruncatedNormal _ d0 NInf PInf (or_introl eq_refl) HC HF) as (LO & UP & OTH).
  assert (ND : names d0 = ["mu"; "sigma"; "lower"; "upper"]).
  { pose proof (construct_names _ _ _ _ HC) as Q. cbn in Q. intuition congruence. }
  assert (FN : free_names (attr d0) (names d0) = filter (fun k => negb (existsb (String.eqb k) (S ++ ["lower"; "upper"]))) (names d0)).
  { unfold free_names. apply filter_ext_in. intros k Hk. rewrite existsb_app. cbn [existsb].
    destruct (String.eqb_spec k "lower"); [subst; rewrite LO, orb_true_r; reflexivity|].
    destruct (String.eqb_spec k "upper"); [subst; rewrite UP, orb_true_r; reflexivity|].
    rewrite (OTH k Hk n n0), orb_false_r. unfold just. destruct (existsb (String.eqb k) S); reflexivity. }
  assert (R : exists m s, refit (ob TruncatedNormal) search m s (reconfigure TruncatedNormal (new_instance ptd TruncatedNormal) d0) = (d, Ok tt)).
  { destruct H as [H|H].
    - unfold epdf_one in H. cbn [c cand family_candidate c_name c_object c_start c_search c_bounds family_name] in H. rewrite HE in H.
      change (o_reparam (family_object ptd eg gam opt TruncatedNormal)) with (reparametrize ptd TruncatedNormal) in H.
      rewrite (reparametrize_fixed TruncatedNormal S v _ d0 NTB HK HC) in H. cbn [bind String.eqb Ascii.eqb Bool.eqb] in H.
      destruct (check_endpoints_silent _ _ _); [|discriminate].
      destruct (refit _ _ _ _ _) as [d' [[]|]] eqn:E; [|discriminate]. injection H as <-. eauto.
    - unfold quartile_one in H. cbn [c cand family_candidate c_name c_object c_start c_search c_bounds family_name] in H. rewrite HE in H.
      change (o_reparam (family_object ptd eg gam opt TruncatedNormal)) with (reparametrize ptd TruncatedNormal) in H.
      rewrite (reparametrize_fixed TruncatedNormal S v _ d0 NTB HK HC) in H. cbn [bind String.eqb Ascii.eqb Bool.eqb] in H.
      destruct (check_endpoints_silent _ _ _); [|discriminate].
      destruct (refit _ _ _ _ _) as [d' [[]|]] eqn:E; [|discriminate]. injection H as <-. eauto. }
  destruct R as (m & s & R).
  assert (WR : In (names (reconfigure TruncatedNormal (new_instance ptd TruncatedNormal) d0)) (sets TruncatedNormal))
    by (cbn [reconfigure names]; rewrite ND; cbn; tauto).
  destruct (refit_keeps TruncatedNormal search m s _ d HO WR) with (2 := R) as (kw & dl & d2 & A1 & A2 & A3 & A4 & A5).
  { intros d2 E. cbn [reconfigure names attr] in E |- *. rewrite FN. specialize (HS d2). rewrite E in HS.
    eapply Forall_impl; [|exact HS]. intros x [L _]. exact L. }
  cbn [reconfigure names attr] in A2, A3, A4.
  destruct (reparametrize_construct _ _ _ _ _ NTB A1) as (e & C1 & ->). cbn [reconfigure attr].
  assert (ALL : forall k, In k (names d0) -> exists y, dict_get kw k = Some y).
  { intros k Hk. apply dict_get_some. apply existsb_in. rewrite A2. exact Hk. }
  assert (G : forall k y, In k (names d0) -> dict_get kw k = Some y -> attr e k = Some y).
  { intros k y Hk Hy. destruct (ALL "mu") as [y1 Y1]; [rewrite ND; cbn; tauto|]. destruct (ALL "sigma") as [y2 Y2]; [rewrite ND; cbn; tauto|].
    destruct (ALL "lower") as [y3 Y3]; [rewrite ND; cbn; tauto|]. destruct (ALL "upper") as [y4 Y4]; [rewrite ND; cbn; tauto|].
    revert C1. unfold_construct. rewrite Y1, Y2, Y3, Y4. cbn. intro C1. injection C1 as <-. rewrite ND in Hk. cbn in Hk.
    repeat (destruct Hk as [<-|Hk]; [cbn; congruence|]). contradiction. }
  split; [|split].
  - intros k KS. assert (KN : In k (names d0)) by (rewrite ND; rewrite Forall_forall in HK; exact (HK k KS)).
    apply G; [exact KN|]. apply A4; [exact KN|]. assert (J : just S v k = Some (Fin (v k))) by (unfold just; rewrite (proj2 (existsb_in k S) KS); reflexivity).
    destruct (string_dec k "lower") as [->|NL]; [rewrite LO, J; reflexivity|].
    destruct (string_dec k "upper") as [->|NU]; [rewrite UP, J; reflexivity|]. rewrite (OTH k KN NL NU). exact J.
  - intro NL. apply G; [rewrite ND; cbn; tauto|]. apply A4; [rewrite ND; cbn; tauto|]. rewrite LO. unfold just.
    destruct (existsb (String.eqb "lower") S) eqn:Q; [apply existsb_in in Q; contradiction|reflexivity].
  - intro NU. apply G; [rewrite ND; cbn; tauto|]. apply A4; [rewrite ND; cbn; tauto|]. rewrite UP. unfold just.
    destruct (existsb (String.eqb "upper") S) eqn:Q; [apply existsb_in in Q; contradiction|reflexivity].
Qed.

(** A parameter name the class does not have: QuartileInt stops with TypeError; Roulette drops everything the user fixed
    for that class and fits it as if nothing had been written. *)
Theorem C75_unknown_name : forall f kw k y search cost discrete cdf extra x_min x_max mean std q1 q2 q3,
  dict_get extra (family_name f) = Some kw -> In (k, y) kw -> ~ In k (signature f) ->
  let c := cand f search cost discrete cdf in
  quartile_one extra q1 q2 q3 c = Err TypeError /\
  epdf_one extra x_min x_max mean std c = epdf_one [] x_min x_max mean std c.
Proof using.
  intros f kw k y search cost discrete cdf extra x_min x_max mean std q1 q2 q3 HE HI HN c.
  assert (R : forall d, reparametrize ptd f kw d = (d, Err TypeError)).
  { intro d. unfold reparametrize. replace (known_keywords f kw) with false; [reflexivity|]. symmetry. apply not_true_is_false.
    unfold known_keywords. intro K. rewrite forallb_forall in K. specialize (K _ HI). apply HN, existsb_in, K. }
  split.
  - unfold quartile_one. cbn [c cand family_candidate c_name c_object c_start]. rewrite HE.
    change (o_reparam (family_object ptd eg gam opt f)) with (reparametrize ptd f). rewrite R. reflexivity.
  - unfold epdf_one. cbn [c cand family_candidate c_name c_object c_start]. rewrite HE. cbn [dict_get].
    change (o_reparam (family_object ptd eg gam opt f)) with (reparametrize ptd f). rewrite R. reflexivity.
Qed.
Lemma betascaled_start : exists d, new_instance ptd BetaScaled = d /\ names d = ["alpha"; "beta"; "lower"; "upper"].
Proof using. eexists. split; reflexivity. Qed.
Lemma reparametrize_betascaled_known kw : Forall (fun kv => In (fst kv) (signature BetaScaled)) kw ->
  dict_get kw "alpha" = None \/ dict_get kw "beta" = None ->
  reparametrize ptd BetaScaled kw (new_instance ptd BetaScaled) = (new_instance ptd BetaScaled, Ok tt).
Proof using.
  intros K H. unfold reparametrize. replace (known_keywords BetaScaled kw) with true.
  2:{ symmetry. unfold known_keywords. apply forallb_forall. intros kv I. apply existsb_in. rewrite Forall_forall in K. auto. }
  cbn [negb]. replace (setN (new_instance ptd BetaScaled) _) with (new_instance ptd BetaScaled) by reflexivity.
  destruct H as [->| ->]; [reflexivity|]. destruct (dict_get kw "alpha"); reflexivity.
Qed.
(** FINDING. Roulette ignores what the user fixes for BetaScaled, unless both alpha and beta are given: the call does the
    same as without it. *)
Theorem C75_roulette_betascaled_ignored_refuted : forall kw search cost discrete cdf extra x_min x_max mean std,
  dict_get extra "BetaScaled" = Some kw -> Forall (fun kv => In (fst kv) (signature BetaScaled)) kw ->
  dict_get kw "alpha" = None \/ dict_get kw "beta" = None ->
  let c := cand BetaScaled search cost discrete cdf in
  epdf_one extra x_min x_max mean std c = epdf_one [] x_min x_max mean std c.
Proof using.
  intros kw search cost discrete cdf extra x_min x_max mean std HE K H c. unfold epdf_one.
  cbn [c cand family_candidate c_name c_object c_start family_name]. rewrite HE. cbn [dict_get].
  change (o_reparam (family_object ptd eg gam opt BetaScaled)) with (reparametrize ptd BetaScaled).
  rewrite (reparametrize_betascaled_known kw K H). reflexivity.
Qed.
(** FINDING. In QuartileInt, bounds of BetaScaled are honoured only when both are given: otherwise the call stops with
    KeyError, whatever else was fixed. *)
Theorem C75_quartile_betascaled_one_bound_refuted : forall kw search cost discrete cdf extra q1 q2 q3,
  dict_get extra "BetaScaled" = Some kw -> Forall (fun kv => In (fst kv) (signature BetaScaled)) kw ->
  dict_get kw "lower" = None \/ dict_get kw "upper" = None ->
  quartile_one extra q1 q2 q3 (cand BetaScaled search cost discrete cdf) = Err KeyError.
Proof using.
  intros kw search cost discrete cdf extra q1 q2 q3 HE K H. unfold quartile_one.
  cbn [cand family_candidate c_name c_object c_start family_name]. rewrite HE.
  change (o_reparam (family_object ptd eg gam opt BetaScaled)) with (reparametrize ptd BetaScaled).
  unfold reparametrize. replace (known_keywords BetaScaled kw) with true.
  2:{ symmetry. unfold known_keywords. apply forallb_forall. intros kv I. apply existsb_in. rewrite Forall_forall in K. auto. }
  cbn [negb]. destruct (dict_get kw "alpha"); [destruct (dict_get kw "beta")|];
    cbn [String.eqb Ascii.eqb Bool.eqb]; destruct H as [->| ->]; try reflexivity; destruct (dict_get kw "lower") as [[]|]; reflexivity.
Qed.
(** FINDING. In QuartileInt, alpha alone or beta alone is ignored for BetaScaled. *)
Theorem C75_quartile_betascaled_shape_ignored_refuted : forall kw lo up search cost discrete cdf extra q1 q2 q3,
  dict_get extra "BetaScaled" = Some kw -> Forall (fun kv => In (fst kv) (signature BetaScaled)) kw ->
  dict_get kw "lower" = Some (Fin lo) -> dict_get kw "upper" = Some (Fin up) ->
  dict_get kw "alpha" = None \/ dict_get kw "beta" = None ->
  let c := cand BetaScaled search cost discrete cdf in
  quartile_one extra q1 q2 q3 c = quartile_one [("BetaScaled", [("lower", Fin lo); ("upper", Fin up)])] q1 q2 q3 c.
Proof using.
  intros kw lo up search cost discrete cdf extra q1 q2 q3 HE K HL HU H c. unfold quartile_one.
  cbn [c cand family_candidate c_name c_object c_start family_name]. rewrite HE. cbn [dict_get String.eqb Ascii.eqb Bool.eqb].
  change (o_reparam (family_object ptd eg gam opt BetaScaled)) with (reparametrize ptd BetaScaled).
  rewrite (reparametrize_betascaled_known kw K H).
  rewrite (reparametrize_betascaled_known [("lower", Fin lo); ("upper", Fin up)]);
    [|repeat constructor; cbn; tauto|left; reflexivity].
  rewrite HL, HU. reflexivity.
Qed.
Lemma refit_betascaled S search m s d1 d lo up : opt_updates opt -> names d1 = ["alpha"; "beta"; "lower"; "upper"] ->
  attr d1 "lower" = Some (Fin lo) -> attr d1 "upper" = Some (Fin up) ->
  free_names (attr d1) (names d1) = filter (fun k => negb (existsb (String.eqb k) S)) (names d1) -> searches_free S search ->
  refit (ob BetaScaled) search m s d1 = (d, Ok tt) ->
  attr d "lower" = Some (Fin lo) /\ attr d "upper" = Some (Fin up) /\ supp d = (Fin lo, Fin up).
Proof using.
  intros HO ND LO UP FN HS R.
  destruct (refit_keeps BetaScaled search m s d1 d HO) as (kw & dl & d2 & A1 & A2 & A3 & A4 & A5); [rewrite ND; cbn; tauto| |exact R|].
  { intros d2 E. rewrite FN. specialize (HS d2). rewrite E in HS. eapply Forall_impl; [|exact HS]. intros x [L _]. exact L. }
  assert (ALL : forall k, In k (names d1) -> exists y, dict_get kw k = Some y).
  { intros k Hk. apply dict_get_some. apply existsb_in. rewrite A2. exact Hk. }
  destruct (ALL "alpha") as [y1 Y1]; [rewrite ND; cbn; tauto|]. destruct (ALL "beta") as [y2 Y2]; [rewrite ND; cbn; tauto|].
  assert (Y3 : dict_get kw "lower" = Some (Fin lo)) by (apply A4; [rewrite ND; cbn; tauto|exact LO]).
  assert (Y4 : dict_get kw "upper" = Some (Fin up)) by (apply A4; [rewrite ND; cbn; tauto|exact UP]).
  unfold reparametrize in A1. destruct (negb _); [discriminate|]. cbv zeta in A1. rewrite Y1, Y2, Y3, Y4 in A1. injection A1 as <-.
  split; [reflexivity|split; reflexivity].
Qed.
(** The parameters of BetaScaled that are kept: all four if alpha and beta are given, otherwise the two bounds. *)
Definition betascaled_kept (kw : list (string * xr)) : list string :=
  match dict_get kw "alpha", dict_get kw "beta" with
  | Some _, Some _ => ["alpha"; "beta"; "lower"; "upper"]
  | _, _ => ["lower"; "upper"]
  end.
Lemma betascaled_assigned kw d1 : Forall (fun kv => In (fst kv) (signature BetaScaled)) kw ->
  reparametrize ptd BetaScaled kw (new_instance ptd BetaScaled) = (d1, Ok tt) -> forall lo up,
  names (update_bounds d1 lo up) = ["alpha"; "beta"; "lower"; "upper"] /\
  free_names (attr (update_bounds d1 lo up)) (names (update_bounds d1 lo up)) =
    filter (fun k => negb (existsb (String.eqb k) (betascaled_kept kw))) (names (update_bounds d1 lo up)).
Proof using.
  intros K H lo up.
  destruct (dict_get kw "alpha") as [a|] eqn:EA; [destruct (dict_get kw "beta") as [b|] eqn:EB|].
  - unfold reparametrize in H. destruct (negb _); [discriminate|]. cbv zeta in H. rewrite EA, EB in H. injection H as <-.
    unfold betascaled_kept. rewrite EA, EB. destruct (dict_get kw "lower"), (dict_get kw "upper"); split; reflexivity.
  - rewrite (reparametrize_betascaled_known kw K) in H by (right; exact EB). injection H as <-.
    unfold betascaled_kept. rewrite EA, EB. split; reflexivity.
  - rewrite (reparametrize_betascaled_known kw K) in H by (left; exact EA). injection H as <-.
    unfold betascaled_kept. rewrite EA. split; reflexivity.
Qed.
Lemma betascaled_assign kw d : Forall (fun kv => In (fst kv) (signature BetaScaled)) kw -> exists d1, reparametrize ptd BetaScaled kw d = (d1, Ok tt).
Proof using.
  intro K. unfold reparametrize. replace (known_keywords BetaScaled kw) with true.
  2:{ symmetry. unfold known_keywords. apply forallb_forall. intros kv I. apply existsb_in. rewrite Forall_forall in K. auto. }
  cbn [negb]. destruct (dict_get kw "alpha"); [destruct (dict_get kw "beta")|]; eauto.
Qed.
(** FINDING. BetaScaled as fitted by Roulette always has the ends of the grid as its bounds, also when the user fixed
    lower, upper and the shapes. *)
Theorem C75_roulette_betascaled_bounds_refuted : forall kw search cost discrete cdf extra x_min x_max mean std d,
  opt_updates opt -> dict_get extra "BetaScaled" = Some kw -> Forall (fun kv => In (fst kv) (signature BetaScaled)) kw ->
  searches_free (betascaled_kept kw) search ->
  epdf_one extra x_min x_max mean std (cand BetaScaled search cost discrete cdf) = Ok (Some d) ->
  attr d "lower" = Some (Fin x_min) /\ attr d "upper" = Some (Fin x_max) /\ supp d = (Fin x_min, Fin x_max).
Proof using.
  intros kw search cost discrete cdf extra x_min x_max mean std d HO HE K HS H. unfold epdf_one in H.
  cbn [cand family_candidate c_name c_object c_start c_search c_bounds family_name] in H. rewrite HE in H.
  change (o_reparam (family_object ptd eg gam opt BetaScaled)) with (reparametrize ptd BetaScaled) in H.
  destruct (betascaled_assign kw (new_instance ptd BetaScaled) K) as [d1 E1]. rewrite E1 in H. cbn [bind String.eqb Ascii.eqb Bool.eqb] in H.
  destruct (betascaled_assigned kw d1 K E1 x_min x_max) as [ND FN].
  destruct (check_endpoints_silent _ _ _); [|discriminate].
  destruct (refit _ _ _ _ _) as [d' [[]|]] eqn:E; [|discriminate]. injection H as <-.
  eapply refit_betascaled; try exact E; eauto; reflexivity.
Qed.
(** BetaScaled as fitted by QuartileInt has the bounds the user fixed, if both were fixed. *)
Theorem C75_quartile_betascaled_bounds : forall kw lo up search cost discrete cdf extra q1 q2 q3 d,
  opt_updates opt -> dict_get extra "BetaScaled" = Some kw -> Forall (fun kv => In (fst kv) (signature BetaScaled)) kw ->
  dict_get kw "lower" = Some (Fin lo) -> dict_get kw "upper" = Some (Fin up) -> searches_free (betascaled_kept kw) search ->
  quartile_one extra q1 q2 q3 (cand BetaScaled search cost discrete cdf) = Ok (Some d) ->
  attr d "lower" = Some (Fin lo) /\ attr d "upper" = Some (Fin up) /\ supp d = (Fin lo, Fin up).
Proof using.
  intros kw lo up search cost discrete cdf extra q1 q2 q3 d HO HE K HL HU HS H. unfold quartile_one in H.
  cbn [cand family_candidate c_name c_object c_start c_search c_bounds family_name] in H. rewrite HE in H.
  change (o_reparam (family_object ptd eg gam opt BetaScaled)) with (reparametrize ptd BetaScaled) in H.
  destruct (betascaled_assign kw (new_instance ptd BetaScaled) K) as [d1 E1]. rewrite E1 in H. cbn [String.eqb Ascii.eqb Bool.eqb] in H.
  rewrite HL, HU in H. cbn [bind] in H.
  destruct (betascaled_assigned kw d1 K E1 lo up) as [ND FN].
  destruct (check_endpoints_silent _ _ _); [|discriminate].
  destruct (refit _ _ _ _ _) as [d' [[]|]] eqn:E; [|discriminate]. injection H as <-.
  eapply refit_betascaled; try exact E; eauto; reflexivity.
Qed.
End Fixed.

(** What is written for a class that is not selected has no effect. *)
Theorem C75_other_names : forall D extra extra' x_min x_max mean std q1 q2 q3 (cs : list (candidate D)),
  (forall c, In c cs -> dict_get extra (c_name c) = dict_get extra' (c_name c)) ->
  run_epdf extra x_min x_max mean std cs = run_epdf extra' x_min x_max mean std cs /\
  run_quartile extra q1 q2 q3 cs = run_quartile extra' q1 q2 q3 cs.
Proof.
  intros D extra extra' x_min x_max mean std q1 q2 q3 cs H. unfold run_epdf, run_quartile. split.
  - assert (G : forall st, epdf_loop extra x_min x_max mean std cs st = epdf_loop extra' x_min x_max mean std cs st).
    { induction cs as [|c cs IH]; intro st; cbn [epdf_loop]; [reflexivity|].
      assert (E : epdf_one extra x_min x_max mean std c = epdf_one extra' x_min x_max mean std c) by (unfold epdf_one; rewrite (H c (or_introl eq_refl)); reflexivity).
      rewrite E. destruct (epdf_one extra' x_min x_max mean std c); cbn [bind]; [|reflexivity]. apply IH. intros c' I. apply H. right. exact I. }
    rewrite G. reflexivity.
  - generalize (None : option D) PInf. induction cs as [|c cs IH]; intros fit e; cbn [quartile_loop]; [reflexivity|].
    assert (E : quartile_one extra q1 q2 q3 c = quartile_one extra' q1 q2 q3 c) by (unfold quartile_one; rewrite (H c (or_introl eq_refl)); reflexivity).
    rewrite E. assert (IH' : forall fit e, quartile_loop extra q1 q2 q3 cs e fit = quartile_loop extra' q1 q2 q3 cs e fit) by (apply IH; intros c' I; apply H; right; exact I).
    destruct (quartile_one extra' q1 q2 q3 c) as [[d|]|]; cbn [bind]; [|apply IH'|reflexivity]. cbv zeta. destruct (xltb _ _); apply IH'.
Qed.

(* ---------------- concrete cases ---------------- *)
Definition no_opt : family -> dist -> R -> R -> res dist := fun _ _ _ _ => Err RuntimeError.
(** A search that answers 2 for every parameter not in [S]. *)
Definition all_two (S : list string) (d : dist) : list (list xr) * list xr :=
  ([], map (fun _ => Fin 2) (filter (fun k => negb (existsb (String.eqb k) S)) (names d))).
Lemma all_two_searches S : searches_free S (all_two S).
Proof.
  intro d. constructor; [|constructor]. cbn [snd all_two]. split; [apply map_length|]. apply Forall_forall. intros x I.
  apply in_map_iff in I. destruct I as (k & <- & _). eexists. reflexivity.
Qed.
Definition demo_candidate (f : family) (S : list string) (cost : xr) : candidate dist :=
  family_candidate ig_from_mu_sigma 0 (fun _ => PInf) no_opt f (all_two S) (fun _ => cost) false (fun _ _ => Fin 0).
Lemma demo_updates : opt_updates no_opt.
Proof. intros f d m s d' H. discriminate. Qed.
(** Normal(mu=5) among the extra parameters. *)
Example C75_fixed_applies : let S := ["mu"] in let v := fun _ : string => 5 in
  (exists d0, construct ig_from_mu_sigma Normal (just S v) = Ok d0 /\ frozen d0 = false) /\
  exists d, epdf_one [("Normal", fixed_at S v)] 0 10 (Fin 4) (Fin 1) (demo_candidate Normal S (Fin 1)) = Ok (Some d) /\
            quartile_one [("Normal", fixed_at S v)] 3 5 7 (demo_candidate Normal S (Fin 1)) = Ok (Some d) /\
            params d = [Some (Fin 5); Some (Fin 2)] /\ valid Normal (names d) (fun k => if String.eqb k "mu" then 5 else 2).
Proof.
  cbv zeta. split; [eexists; split; reflexivity|]. eexists. split; [reflexivity|]. split; [reflexivity|]. split; [reflexivity|]. cbn. lra.
Qed.
(** TruncatedNormal(lower=0). *)
Example C75_truncated_applies : let S := ["lower"] in
  exists d, epdf_one [("TruncatedNormal", fixed_at S (fun _ => 0))] 1 10 (Fin 4) (Fin 1) (demo_candidate TruncatedNormal (S ++ ["lower"; "upper"]) (Fin 1)) = Ok (Some d)
    /\ attr d "lower" = Some (Fin 0).
Proof.
  cbv zeta. unfold epdf_one. cbn -[xleb]. rewrite (proj2 (xleb_fin 0 1)) by lra. cbn. eexists. split; reflexivity.
Qed.
(** BetaScaled(lower=-5, upper=20) with chips between 0 and 10. *)
Example C75_betascaled_applies : let kw := [("lower", Fin (-5)); ("upper", Fin 20)] in
  exists d, epdf_one [("BetaScaled", kw)] 0 10 (Fin 4) (Fin 1) (demo_candidate BetaScaled (betascaled_kept kw) (Fin 1)) = Ok (Some d) /\
    exists d', quartile_one [("BetaScaled", kw)] 3 5 7 (demo_candidate BetaScaled (betascaled_kept kw) (Fin 1)) = Ok (Some d') /\
    supp d = (Fin 0, Fin 10) /\ supp d' = (Fin (-5), Fin 20).
Proof.
  cbv zeta. unfold epdf_one, quartile_one.
  cbn -[xleb fit_moments refit]. rewrite !(fun a b H => proj2 (xleb_fin a b) H) by lra. cbn -[fit_moments]. unfold refit. cbn.
  repeat (match goal with |- context [Reqb ?a 0] => replace (Reqb a 0) with false by (symmetry; apply Reqb_false; intro Z; field_simplify in Z; lra) end; cbn).
  eexists. split; [reflexivity|]. eexists. split; [reflexivity|]. split; reflexivity.
Qed.
(** Two candidates, and one that is out of support. *)
Example C75_best_applies : exists d, run_epdf [("Normal", [("mu", Fin 5)])] (-1) 10 (Fin 4) (Fin 1)
    [demo_candidate TruncatedNormal ["lower"; "upper"] (Fin 3); demo_candidate Normal ["mu"] (Fin 1); demo_candidate HalfNormal [] (Fin 0)] = Ok (Some d) /\
  names d = ["mu"; "sigma"].
Proof.
  unfold run_epdf. cbn -[xleb xltb].
  assert (E : xltb (Fin 1) (Fin 3) = true) by (cbn; apply Rltb_true; lra).
  assert (E0 : xleb (Fin 0) (Fin (-1)) = false) by (apply not_true_is_false; intro Q; apply xleb_fin in Q; lra). rewrite E0.
  change (xleb NInf (Fin (-1))) with true. change (xleb (Fin 10) PInf) with true. cbn -[xltb]. unfold loss_update.
  cbn [old_loss best recorded new_loss app]. change (xltb (Fin 3) PInf) with true. cbn [old_loss best recorded]. rewrite E.
  eexists. split; reflexivity.
Qed.
Print Assumptions C75_roulette_best.
Print Assumptions C75_quartile_best.
Print Assumptions C75_exception_ends.
Print Assumptions C75_roulette_keeps_fixed.
Print Assumptions C75_quartile_keeps_fixed.
Print Assumptions C75_truncated_keeps_fixed.
Print Assumptions C75_unknown_name.
Print Assumptions C75_roulette_betascaled_ignored_refuted.
Print Assumptions C75_quartile_betascaled_one_bound_refuted.
Print Assumptions C75_quartile_betascaled_shape_ignored_refuted.
Print Assumptions C75_roulette_betascaled_bounds_refuted.
Print Assumptions C75_quartile_betascaled_bounds.
Print Assumptions C75_other_names.
