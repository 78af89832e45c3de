(** C67. *)
From Coq Require Import Reals List String Bool ZArith Lia Lra.
From Verif Require Import Base XR RLists SpecialModel SpecProps CategModel.
Import ListNotations.
Local Open Scope R_scope.
Local Open Scope string_scope.
Local Open Scope list_scope.

(** What makes a list of numbers the probabilities of a distribution. *)
Definition probabilities (ps : list R) : Prop := (forall x, In x ps -> 0 <= x <= 1) /\ Rsum ps = 1.

(** Given probabilities: these are the probabilities of the distribution, whatever it was before, the values are
    0, ..., n - 1, and the reported parameter is p. *)
Theorem C67_given_p : forall d ps, exists d', parametrize d (Some ps) None = Ok d' /\
  c_p d' = Some ps /\ c_params d' = Some ps /\ c_name d' = "p" /\ c_support d' = Some (0, Z.of_nat (List.length ps) - 1)%Z /\ c_frozen d' = true /\
  c_logit d' = Some (map xlogit ps).
Proof. intros d ps. eexists. split; [reflexivity|]. cbn. repeat split. Qed.

Lemma map_logit_expit : forall ls, map xlogit (map xexpit (map Fin ls)) = map Fin ls.
Proof.
  induction ls as [|x ls IH]; [reflexivity|]. cbn [map]. f_equal; [|exact IH].
  destruct (C43_expit x) as [p [E [_ [_ L]]]]. rewrite E. exact L.
Qed.

(** Given log odds: the parameter reported is what was given, and each probability is the one with those odds. *)
Theorem C67_given_logit_p : forall d ls, exists d' ps, parametrize d None (Some (map Fin ls)) = Ok d' /\
  c_params d' = Some (map Fin ls) /\ c_name d' = "logit_p" /\ c_frozen d' = true /\
  c_support d' = Some (0, Z.of_nat (List.length ls) - 1)%Z /\
  c_p d' = Some (map Fin ps) /\ ps = map (fun x => 1 / (1 + exp (- x))) ls /\ (forall x, In x ps -> 0 < x < 1).
Proof.
  intros d ls.
  assert (E : map xexpit (map Fin ls) = map Fin (map (fun x => 1 / (1 + exp (- x))) ls)).
  { rewrite !map_map. apply map_ext. intros x. rewrite xexpit_fin. unfold logistic. f_equal. unfold Rdiv. rewrite Rmult_1_l. reflexivity. }
  eexists. exists (map (fun x => 1 / (1 + exp (- x))) ls). split; [reflexivity|]. cbn.
  rewrite map_logit_expit, E. repeat split.
  - rewrite !map_length. reflexivity.
  - apply in_map_iff in H. destruct H as [y [<- _]]. pose proof (exp_pos (- y)). apply Rdiv_lt_0_compat; lra.
  - apply in_map_iff in H. destruct H as [y [<- _]]. pose proof (exp_pos (- y)).
    apply Rmult_lt_reg_r with (1 + exp (- y)); [lra|]. unfold Rdiv. rewrite Rmult_assoc, Rinv_l by lra. lra.
Qed.

(** Both at once are rejected. *)
Theorem C67_both : forall d p l, parametrize d (Some p) (Some l) = Err ValueError.
Proof. reflexivity. Qed.

(** The history does not matter: what a distribution is after a complete parametrization is what a new one would be. *)
Theorem C67_history : forall d p l, (p <> None \/ l <> None) -> parametrize d p l = create p l.
Proof.
  intros d [p|] [l|] H; try reflexivity. destruct H as [H|H]; congruence.
Qed.

(** The log odds of each value are taken on their own, so the probabilities they give add up to 1 only by chance: equal log
    odds of 0 for n values give each the probability 1/2. *)
Theorem C67_logit_p_refuted : forall n, exists d, create None (Some (repeat (Fin 0) n)) = Ok d /\
  c_p d = Some (map Fin (repeat (1 / 2) n)) /\ Rsum (repeat (1 / 2) n) = INR n / 2 /\ (n <> 2%nat -> ~ probabilities (repeat (1 / 2) n)).
Proof.
  intros n.
  assert (S : Rsum (repeat (1 / 2) n) = INR n / 2).
  { induction n as [|n IH]; [cbn; rewrite Rsum_nil; lra|]. cbn [repeat]. rewrite Rsum_cons, IH, S_INR. lra. }
  eexists. split; [reflexivity|]. split; [|split; [exact S|]].
  - cbn. f_equal. clear S. induction n as [|n IH]; [reflexivity|]. cbn [repeat map]. f_equal; [|exact IH].
    rewrite xexpit_fin. unfold logistic. f_equal. rewrite Ropp_0, exp_0. lra.
  - intros N [_ E]. rewrite S in E. apply N. apply INR_eq. cbn. lra.
Qed.

(** The interactive plot. A call never makes a distribution out of numbers that add up to more than 1. *)
Theorem C67_sliders_checked : forall d values d', on_sliders d values = Ok (Some d') -> Rsum values <= 1.
Proof.
  intros d values d' H. destruct values as [|v vs]; [discriminate|]. unfold on_sliders in H.
  destruct (Rltb 1 (Rsum (v :: vs))) eqn:E; [discriminate|]. unfold Rltb in E. destruct (Rlt_dec 1 (Rsum (v :: vs))); [discriminate|]. lra.
Qed.
Theorem C67_sliders : forall ps values, c_name ps = "p" -> values <> [] -> probabilities values ->
  exists d', on_sliders ps values = Ok (Some d') /\ c_p d' = Some (map Fin values) /\ create (Some (map Fin values)) None = Ok d'.
Proof.
  intros d values N NE [_ S]. destruct values as [|v vs]; [congruence|]. unfold on_sliders. rewrite N, S.
  replace (Rltb 1 1) with false by (symmetry; apply Rltb_false; lra). eexists. split; [reflexivity|]. split; reflexivity.
Qed.

(** From a distribution there is no way to another with one slider: whichever slider is moved, wherever to, either nothing is
    drawn or what is drawn has probabilities that add up to less than 1. *)
Theorem C67_one_slider_refuted : forall d before x after y, c_name d = "p" -> probabilities (before ++ x :: after) -> y <> x ->
  on_sliders d (before ++ y :: after) = Ok None \/
  exists d', on_sliders d (before ++ y :: after) = Ok (Some d') /\ c_p d' = Some (map Fin (before ++ y :: after)) /\
    Rsum (before ++ y :: after) < 1 /\ ~ probabilities (before ++ y :: after).
Proof.
  intros d a x b y N [_ S] NE.
  assert (S' : Rsum (a ++ y :: b) = 1 + (y - x)).
  { rewrite Rsum_app in *. change (Rsum (y :: b)) with (y + Rsum b). change (Rsum (x :: b)) with (x + Rsum b) in S. lra. }
  assert (V : exists v vs, a ++ y :: b = v :: vs) by (destruct a; eexists; eexists; reflexivity). destruct V as [v [vs V]].
  unfold on_sliders. rewrite V in *. destruct (Rltb 1 (Rsum (v :: vs))) eqn:E; [left; reflexivity|right].
  assert (L : Rsum (v :: vs) <= 1) by (unfold Rltb in E; destruct (Rlt_dec 1 (Rsum (v :: vs))); [discriminate|lra]).
  rewrite N. eexists. split; [reflexivity|]. split; [reflexivity|].
  assert (Rsum (v :: vs) < 1) by lra. split; [assumption|]. intros [_ Q]. lra.
Qed.

(** A Categorical given by its log odds cannot be explored: the name of the parameter is cut at its underscore. *)
Theorem C67_logit_p_sliders_refuted : forall ls d values, create None (Some (map Fin ls)) = Ok d -> values <> [] ->
  on_sliders d values = Ok None \/ on_sliders d values = Err TypeError.
Proof.
  intros ls d values E NE. destruct values as [|v vs]; [congruence|].
  cbn in E. injection E as <-. unfold on_sliders. destruct (Rltb 1 (Rsum (v :: vs))); [left|right]; reflexivity.
Qed.

(** What a Categorical computes depends on its probabilities only: given as probabilities strictly between 0 and 1 or as their
    log odds, every method gives the same answer (or the same exception) at every argument. *)
Theorem C67_same_law : forall ps d1 d2 A B (lib : string -> option A -> option (list xr) -> res B) method arg,
  (forall x, In x ps -> 0 < x < 1) -> create (Some (map Fin ps)) None = Ok d1 -> create None (Some (map xlogit (map Fin ps))) = Ok d2 ->
  evaluate lib d1 method arg = evaluate lib d2 method arg.
Proof.
  intros ps d1 d2 A B lib method arg H E1 E2. unfold evaluate.
  replace (c_p d2) with (c_p d1); [reflexivity|]. cbn in E1, E2. injection E1 as <-. injection E2 as <-. cbn. f_equal.
  induction ps as [|p ps IH]; [reflexivity|]. cbn [map]. f_equal; [|apply IH; intros; apply H; right; assumption].
  destruct (C43_logit p (H p (or_introl eq_refl))) as (r & -> & _ & E). symmetry. exact E.
Qed.
(** Each method is the function of the library with the same name, at the probabilities of the distribution. *)
Theorem C67_each_method : forall A B (lib : string -> option A -> option (list xr) -> res B) d method arg,
  In method ["pdf"; "cdf"; "ppf"; "logpdf"; "entropy"; "mean"; "mode"; "median"; "var"; "std"; "skewness"; "kurtosis"; "rvs"] ->
  evaluate lib d method arg = lib method arg (c_p d).
Proof.
  intros A B lib d method arg H. repeat (destruct H as [<-|H]; [reflexivity|]). contradiction.
Qed.
(** The L-moments are not implemented, and there is nothing under any other name. *)
Theorem C67_no_lmoments : forall A B (lib : string -> option A -> option (list xr) -> res B) d arg,
  (forall method, In method ["lmoment1"; "lmoment2"; "lmoment3"; "lmoment4"] -> evaluate lib d method arg = Err RuntimeError) /\
  (forall method, ~ In method ["pdf"; "cdf"; "ppf"; "logpdf"; "entropy"; "mean"; "mode"; "median"; "var"; "std"; "skewness"; "kurtosis"; "rvs";
                               "lmoment1"; "lmoment2"; "lmoment3"; "lmoment4"] -> evaluate lib d method arg = Err AttributeError).
Proof.
  intros A B lib d arg. split.
  - intros method H. repeat (destruct H as [<-|H]; [reflexivity|]). contradiction.
  - intros method H. unfold evaluate, law_of.
    assert (N : forall l, incl l ["pdf"; "cdf"; "ppf"; "logpdf"; "entropy"; "mean"; "mode"; "median"; "var"; "std"; "skewness"; "kurtosis"; "rvs";
                               "lmoment1"; "lmoment2"; "lmoment3"; "lmoment4"] -> existsb (String.eqb method) l = false).
    { intros l I. destruct (existsb _ l) eqn:E; [|reflexivity]. apply existsb_exists in E. destruct E as (x & J & E). apply String.eqb_eq in E. subst x. exfalso. exact (H (I _ J)). }
    rewrite !N; [reflexivity | intros x J; cbn [In] in *; tauto | intros x J; cbn [In] in *; tauto].
Qed.
(** Without arguments there are no probabilities, no support and no parameters, and nothing counts as given. *)
Theorem C67_without_arguments : exists d, create None None = Ok d /\
  c_p d = None /\ c_logit d = None /\ c_params d = None /\ c_support d = None /\ c_frozen d = false.
Proof. eexists. split; [reflexivity|]. repeat split. Qed.
(** FINDING. A Categorical cannot be fitted to a sample. mle is an exception for a new one and for one whose values include
    all of the sample; otherwise the candidate is left out. *)
Theorem C67_fit_refuted : forall d x_min x_max d', fit_one d x_min x_max <> Ok (Some d').
Proof. intros d x_min x_max d'. unfold fit_one. destruct (c_support d) as [[l u]|]; [destruct (_ && _)|]; discriminate. Qed.
Lemma leb_fin a b : xleb (Fin a) (Fin b) = Rleb a b.
Proof.
  unfold xleb, xltb, xeqb. destruct (Rltb_spec a b), (Reqb_spec a b), (Rleb_spec a b); try reflexivity; exfalso; lra.
Qed.
Theorem C67_fit_outcome : forall ps d (a b : Z), create (Some ps) None = Ok d ->
  ((0 <= a /\ b < Z.of_nat (List.length ps))%Z -> fit_one d (Fin (IZR a)) (Fin (IZR b)) = Err AttributeError) /\
  ((a < 0 \/ Z.of_nat (List.length ps) <= b)%Z -> fit_one d (Fin (IZR a)) (Fin (IZR b)) = Ok None) /\
  fit_one blank (Fin (IZR a)) (Fin (IZR b)) = Err TypeError.
Proof.
  intros ps d a b E. cbn in E. injection E as <-. unfold fit_one. cbn [c_support update]. rewrite !leb_fin. split; [|split; [|reflexivity]].
  - intros [A B]. rewrite !Rleb_true; [reflexivity|apply IZR_le; lia|apply IZR_le; exact A].
  - intros [A|A]; [rewrite Rleb_false by (apply IZR_lt; exact A); reflexivity|].
    rewrite (Rleb_false (IZR b)) by (apply IZR_lt; lia). rewrite andb_false_r. reflexivity.
Qed.

(** Concrete cases. *)
Example C67_probabilities_case : probabilities [5 / 10; 1 / 10; 4 / 10].
Proof. split; [|unfold Rsum; cbn; lra]. intros x H. repeat destruct H as [<-|H]; try lra. contradiction. Qed.
Example C67_logit_case : exists d, create None (Some (map Fin [0; 1])) = Ok d /\ c_name d = "logit_p".
Proof. eexists. split; reflexivity. Qed.

Print Assumptions C67_given_p.
Print Assumptions C67_given_logit_p.
Print Assumptions C67_both.
Print Assumptions C67_history.
Print Assumptions C67_logit_p_refuted.
Print Assumptions C67_sliders_checked.
Print Assumptions C67_sliders.
Print Assumptions C67_one_slider_refuted.
Print Assumptions C67_logit_p_sliders_refuted.
Print Assumptions C67_same_law.
Print Assumptions C67_each_method.
Print Assumptions C67_no_lmoments.
Print Assumptions C67_without_arguments.
Print Assumptions C67_fit_refuted.
Print Assumptions C67_fit_outcome.
