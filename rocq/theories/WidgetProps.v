(** C68, C69: the interactive widgets QuartileInt and Roulette. *)
From Coq Require Import List Bool String Reals ZArith QArith Lra Lia.
From Verif Require Import Base XR CatModel RouletteModel WidgetModel.
Import ListNotations.
Open Scope string_scope.
Open Scope list_scope.

(* ------------------------------------------------------------------ specification *)
(** The classes [ds] are the ones named, in order. *)
Definition named (names : list string) (ds : list cls) : Prop := Forall2 (fun n c => class_name c = n) names ds.

(** QuartileInt is up to date for the text [extra]: its result is the best fit to the quartiles in the boxes among the
    selected names, or nothing if the quartiles are not increasing, and the panel shows just that. *)
Definition up_to_date {D} (fit : list cls -> xr -> xr -> xr -> string -> res (option D)) (s : quartiles D) (extra : string) : Prop :=
  let increasing := xltb (q1 s) (q2 s) = true /\ xltb (q2 s) (q3 s) = true in
  (increasing -> exists ds, named (q_names s) ds /\ fit ds (q1 s) (q2 s) (q3 s) extra = Ok (q_dist s)) /\
  (~ increasing -> q_dist s = None) /\
  match q_dist s with Some d => q_panel s = Drawn d (q_kind s) | None => exists m, q_panel s = Message m end.

(* ------------------------------------------------------------------ names *)
Lemma find_class_name : forall n l c, find (fun c => String.eqb (class_name c) n) l = Some c -> In c l /\ class_name c = n.
Proof. intros n l c H. apply find_some in H as [H1 H2]. apply String.eqb_eq in H2. auto. Qed.

Lemma build_all_named : forall l ds, build_all l = Ok ds -> named l ds /\ Forall (fun c => In c all_classes /\ needs_arguments c = false) ds.
Proof.
  induction l as [|n l IH]; intros ds H; cbn [build_all] in H.
  - injection H as <-. split; constructor.
  - destruct (class_of n) as [c|] eqn:E; [|discriminate]. destruct (needs_arguments c) eqn:N; [discriminate|].
    destruct (build_all l) as [cs|e]; [|discriminate]. cbn in H. injection H as <-.
    destruct (IH cs eq_refl) as [A B]. apply find_class_name in E as [E1 E2]. split; constructor; auto.
Qed.

Lemma class_name_inj : forall a b, class_name a = class_name b -> a = b.
Proof.
  intros [fa| | | | | | |] [fb| | | | | | |]; try reflexivity; cbn [class_name];
    try (destruct fa; discriminate); try (destruct fb; discriminate); try discriminate.
  intro H. f_equal. destruct fa, fb; try reflexivity; discriminate.
Qed.
Lemma class_of_name : forall c, In c all_classes -> class_of (class_name c) = Some c.
Proof.
  intros c H. unfold class_of.
  destruct (find _ all_classes) as [d|] eqn:E.
  - apply find_class_name in E as [_ E]. f_equal. now apply class_name_inj.
  - exfalso. pose proof (find_none _ _ E c H) as K. cbn in K. now rewrite String.eqb_refl in K.
Qed.

(* ------------------------------------------------------------------ C68 *)
(** Names are turned into one new distribution each, in order; this fails exactly when a name is unknown or is that of a
    class that cannot be built without arguments. *)
Theorem C68_names : forall l,
  (forall ds, get_distributions (Some l) = Ok ds -> named l ds) /\
  ((exists ds, get_distributions (Some l) = Ok ds) <->
   Forall (fun n => exists c, In c all_classes /\ class_name c = n /\
                              ~ In c [CMixture; CTruncated; CCensored; CHurdle]) l).
Proof.
  intro l. cbn [get_distributions]. split; [intros ds H; now apply build_all_named in H|].
  split.
  - intros [ds H]. apply build_all_named in H as [A B]. revert B. induction A as [|n c l ds A _ IH]; intro B; constructor.
    + inversion B as [|? ? [B1 B2] B3]. subst. exists c. repeat split; auto. intros K. cbn [In] in K.
      destruct K as [<-|[<-|[<-|[<-|[]]]]]; discriminate.
    + apply IH. now inversion B.
  - induction 1 as [|n l [c [H1 [H2 H3]]] _ [ds IH]]; [now exists []|].
    exists (c :: ds). cbn [build_all]. subst n. rewrite class_of_name by assumption.
    assert (needs_arguments c = false) as -> by (destruct c; try reflexivity; exfalso; apply H3; cbn; auto).
    now rewrite IH.
Qed.

(** Without names (no caller does so) it means every distribution there is, and always raises: the modifiers are among them. *)
Theorem C68_all_names_refuted : get_distributions None = Err TypeError.
Proof. reflexivity. Qed.
(** The first name that cannot be built decides which exception is raised. *)
Theorem C68_names_refused : forall before n after, (exists ds, get_distributions (Some before) = Ok ds) ->
  ((forall c, In c all_classes -> class_name c <> n) -> get_distributions (Some (before ++ n :: after)) = Err AttributeError) /\
  (In n ["Mixture"; "Truncated"; "Censored"; "Hurdle"] -> get_distributions (Some (before ++ n :: after)) = Err TypeError).
Proof.
  intros before n after [ds H]. cbn [get_distributions] in *. revert ds H. induction before as [|b before IH]; intros ds H.
  - cbn [app build_all]. split.
    + intros U. unfold class_of. destruct (find _ _) as [c|] eqn:E; [|reflexivity]. apply find_class_name in E as [E1 E2]. exfalso. now apply (U c).
    + intros [<-|[<-|[<-|[<-|[]]]]]; reflexivity.
  - cbn [app build_all] in *. destruct (class_of b) as [c|]; [|discriminate]. destruct (needs_arguments c); [discriminate|].
    destruct (build_all before) as [cs|e]; cbn [bind] in H; [|discriminate]. destruct (IH cs eq_refl) as [A B].
    split; intros U; [rewrite (A U) | rewrite (B U)]; reflexivity.
Qed.

(** The names offered by default can all be fitted, and the default selection is among them. *)
Theorem C68_default_names :
  (exists ds, get_distributions (Some quartile_options) = Ok ds) /\ (exists ds, get_distributions (Some roulette_options) = Ok ds) /\
  incl default_selection quartile_options /\ incl default_selection roulette_options /\
  NoDup quartile_options /\ NoDup roulette_options.
Proof.
  repeat split; try (vm_compute; eexists; reflexivity).
  - intros n H. unfold default_selection, quartile_options in *. cbn [In] in *. intuition.
  - intros n H. unfold default_selection, roulette_options in *. cbn [In] in *. intuition.
  - unfold quartile_options. repeat (constructor; [cbn [In]; intuition discriminate|]). constructor.
  - unfold roulette_options. repeat (constructor; [cbn [In]; intuition discriminate|]). constructor.
Qed.

Section Q.
Variable D : Type.
Variable fit : list cls -> xr -> xr -> xr -> string -> res (option D).

Lemma match_ok : forall s s', match_distribution D fit s = (s', None) ->
  up_to_date fit s' (q_extra s) /\ q_extra s' = q_extra s.
Proof.
  intros s s' H. unfold match_distribution in H. unfold up_to_date.
  destruct (xltb (q1 s) (q2 s)) eqn:A; destruct (xltb (q2 s) (q3 s)) eqn:B; cbn [andb] in H.
  2-4: injection H as <-; cbn [q_set q1 q2 q3 q_dist q_panel q_extra]; repeat split; auto; rewrite ?A, ?B;
       [intros [? ?]; discriminate | eexists; reflexivity].
  destruct (get_distributions (Some (q_names s))) as [ds|e] eqn:G; cbn [bind] in H; [|discriminate].
  cbn [get_distributions] in G. apply build_all_named in G as [G _].
  destruct (fit ds (q1 s) (q2 s) (q3 s) (q_extra s)) as [[d|]|e] eqn:F; try discriminate;
    injection H as <-; cbn [q_set q1 q2 q3 q_dist q_panel q_extra q_names q_kind]; repeat split; auto;
    try (intros _; exists ds; split; assumption); try (rewrite ?A, ?B; intros K; exfalso; apply K; auto; fail).
  eexists; reflexivity.
Qed.

Lemma qstep_ok : forall s e s' t, qstep D fit s e = (s', None) -> (forall u, e <> QExtra u) ->
  up_to_date fit s t -> q_extra s' = q_extra s /\ (up_to_date fit s' t \/ up_to_date fit s' (q_extra s)).
Proof.
  intros s e s' t H N U. destruct e; cbn [qstep] in H;
    try (exfalso; eapply N; reflexivity);
    try match type of H with (if ?c then _ else _) = _ => destruct c; [injection H as <-; auto|] end;
    apply match_ok in H as [H1 H2]; cbn [q_extra] in *; rewrite H2 in *; auto.
Qed.

(** What the boxes say when the widget opens: the numbers and names given, by default the selection of names, no parameters, and the pdf. *)
Theorem C68_opens : forall a b c names, let s := fst (new_quartiles D fit a b c names) in
  q1 s = a /\ q2 s = b /\ q3 s = c /\ q_extra s = "" /\ q_kind s = "pdf" /\
  q_names s = match names with None => ["Normal"; "BetaScaled"; "Gamma"; "LogNormal"; "StudentT"] | Some l => l end.
Proof.
  intros a b c names s. unfold s, new_quartiles, match_distribution. cbn [q1 q2 q3 q_extra q_kind q_names q_dist]. clear s.
  destruct (_ && _); [|repeat split; reflexivity]. destruct (bind _ _) as [[d|]|e]; repeat split; reflexivity.
Qed.

(** Whatever happens, with or without failures, every box holds what was last put in it, or what it held at first. *)
Theorem C68_boxes : forall l s0 s xs, qrun D fit s0 l = (s, xs) ->
  q1 s = last (flat_map (fun e => match e with QSet1 v => [v] | _ => [] end) l) (q1 s0) /\
  q2 s = last (flat_map (fun e => match e with QSet2 v => [v] | _ => [] end) l) (q2 s0) /\
  q3 s = last (flat_map (fun e => match e with QSet3 v => [v] | _ => [] end) l) (q3 s0) /\
  q_extra s = last (flat_map (fun e => match e with QExtra t => [t] | _ => [] end) l) (q_extra s0) /\
  q_kind s = last (flat_map (fun e => match e with QKind k => [k] | _ => [] end) l) (q_kind s0) /\
  q_names s = last (flat_map (fun e => match e with QNames n => [n] | _ => [] end) l) (q_names s0).
Proof using.
  assert (LC : forall (A : Type) (x y : A) l, last (x :: l) y = last l x).
  { intros A x y l. revert x. induction l as [|z l IH]; intro x; [reflexivity|]. cbn [last] in *. destruct l; [reflexivity|]. apply IH. }
  assert (XE : forall a b, xeqb a b = true -> a = b).
  { intros [a| | |] [b| | |] H; try discriminate H; try reflexivity. cbn in H. destruct (Reqb_spec a b); [now subst | discriminate]. }
  assert (M : forall s, let s' := fst (match_distribution D fit s) in
    q1 s' = q1 s /\ q2 s' = q2 s /\ q3 s' = q3 s /\ q_extra s' = q_extra s /\ q_kind s' = q_kind s /\ q_names s' = q_names s).
  { intros s s'. unfold s', match_distribution. destruct (_ && _); [|repeat split]. destruct (bind _ _) as [[d|]|e]; repeat split. }
  induction l as [|e l IH]; intros s0 s xs H; cbn [qrun] in H; [injection H as <- <-; repeat split|].
  destruct (qstep D fit s0 e) as [s1 x] eqn:Q. destruct (qrun D fit s1 l) as [s2 ys] eqn:R. injection H as <- _. destruct (IH s1 s2 ys R) as (I1 & I2 & I3 & I4 & I5 & I6).
  cbn [flat_map]. rewrite I1, I2, I3, I4, I5, I6. clear I1 I2 I3 I4 I5 I6 IH R.
  destruct e; cbn [qstep] in Q; cbn [app]; rewrite ?LC;
    try match type of Q with (if ?c then _ else _) = _ => destruct c eqn:E end;
    try (injection Q as <- <-; apply XE in E; subst; repeat split; fail);
    try (injection Q as <- <-; apply String.eqb_eq in E; subst; repeat split; fail);
    try (injection Q as <- <-; repeat split; fail);
    try (match type of Q with match_distribution _ _ ?z = _ => specialize (M z); rewrite Q in M; cbn [fst q1 q2 q3 q_extra q_kind q_names] in M;
           destruct M as (-> & -> & -> & -> & -> & ->); repeat split end; fail).
  injection Q as <- <-. unfold names_eqb in E. destruct (list_eq_dec _ _ _) as [->|]; [repeat split | discriminate].
Qed.

(** As long as the params box is not touched and nothing fails, the widget shows the fit for what its boxes say. *)
Theorem C68_current : forall a b c names s0 l s,
  new_quartiles D fit a b c names = (s0, None) -> qrun D fit s0 l = (s, []) -> (forall t, ~ In (QExtra t) l) ->
  up_to_date fit s (q_extra s) /\ q_extra s = "".
Proof.
  intros a b c names s0 l s H0 H N.
  apply match_ok in H0 as [U E]. cbn [q_extra] in U, E. rewrite <- E in U.
  assert (K : forall l s0 s, up_to_date fit s0 (q_extra s0) -> qrun D fit s0 l = (s, []) -> (forall t, ~ In (QExtra t) l) ->
              up_to_date fit s (q_extra s) /\ q_extra s = q_extra s0).
  { clear. induction l as [|e l IH]; intros s0 s U H N; cbn [qrun] in H; [injection H as <-; auto|].
    destruct (qstep D fit s0 e) as [s1 x] eqn:S. destruct (qrun D fit s1 l) as [s2 xs] eqn:R.
    destruct x; [discriminate|]. injection H as <- ->.
    destruct (qstep_ok s0 e s1 (q_extra s0) S) as [E U1]; auto.
    { intros u ->. apply (N u). now left. }
    rewrite <- E. apply IH; auto. { rewrite E. tauto. } intros t K. apply (N t). now right. }
  destruct (K l s0 s U H N) as [A B]. split; [assumption|]. now rewrite B.
Qed.

(** Releasing the mouse on the figure brings everything up to date, params included. *)
Theorem C68_release : forall s s', qstep D fit s QRelease = (s', None) ->
  up_to_date fit s' (q_extra s') /\
  q1 s' = q1 s /\ q2 s' = q2 s /\ q3 s' = q3 s /\ q_extra s' = q_extra s /\ q_kind s' = q_kind s /\ q_names s' = q_names s.
Proof.
  intros s s' H. cbn [qstep] in H. pose proof (match_ok s s' H) as [A B]. rewrite B at 1. split; [assumption|].
  unfold match_distribution in H. destruct (_ && _).
  - destruct (bind _ _) as [[d|]|e]; try discriminate; injection H as <-; auto 10.
  - injection H as <-; auto 10.
Qed.

(** In every history without failures the result belongs to the quartiles and the names shown, for some text that the params
    box has held. *)
Theorem C68_some_text : forall a b c names s0 l s,
  new_quartiles D fit a b c names = (s0, None) -> qrun D fit s0 l = (s, []) ->
  exists t, (t = "" \/ In (QExtra t) l) /\ up_to_date fit s t.
Proof.
  intros a b c names s0 l s H0 H.
  apply match_ok in H0 as [U E]. cbn [q_extra] in U, E.
  assert (K : forall l s0 s t, up_to_date fit s0 t -> qrun D fit s0 l = (s, []) ->
              exists u, (u = t \/ u = q_extra s0 \/ In (QExtra u) l) /\ up_to_date fit s u).
  { clear. induction l as [|e l IH]; intros s0 s t U H; cbn [qrun] in H; [injection H as <-; eauto|].
    destruct (qstep D fit s0 e) as [s1 x] eqn:S. destruct (qrun D fit s1 l) as [s2 xs] eqn:R.
    destruct x; [discriminate|]. injection H as <- ->.
    assert ((exists u, e = QExtra u) \/ forall u, e <> QExtra u) as [[u ->]|N]
      by (destruct e; eauto; right; intros u K; discriminate K).
    - cbn [qstep] in S. injection S as <-.
      pose proof (fun P => IH _ _ t P R) as Q; destruct (Q U) as [v [P V]]. exists v. split; [|assumption]. cbn [q_extra In] in *. intuition (subst; auto).
    - destruct (qstep_ok s0 e s1 t S N U) as [E [U1|U1]].
      + destruct (IH s1 _ _ U1 R) as [v [P V]]. exists v. split; [|assumption]. rewrite E in P. cbn [In]. intuition.
      + destruct (IH s1 _ _ U1 R) as [v [P V]]. exists v. split; [|assumption]. rewrite E in P. cbn [In]. intuition. }
  destruct (K l s0 s "" U H) as [t [P T]]. rewrite E in P. exists t. split; [intuition|assumption].
Qed.

(** A failing fit (an unknown name, an exception of the optimiser) leaves the last result in place. *)
Theorem C68_failure : forall s e s' x, qstep D fit s e = (s', Some x) -> q_dist s' = q_dist s.
Proof.
  assert (K : forall s s' x, match_distribution D fit s = (s', Some x) -> q_dist s' = q_dist s).
  { intros s s' x H. unfold match_distribution in H. destruct (_ && _); [|discriminate].
    destruct (bind _ _) as [[d|]|e]; try discriminate. now injection H as <- _. }
  intros s e s' x H. destruct e; cbn [qstep] in H; try discriminate;
    try match type of H with (if ?c then _ else _) = _ => destruct c; [discriminate|] end; apply K in H; exact H.
Qed.
End Q.

(** A fit that prefers the class named in the params box, used in the examples. *)
Definition toy_fit (ds : list cls) (_ _ _ : xr) (extra : string) : res (option string) :=
  Ok (match ds with [] => None | c :: _ => Some (class_name c ++ extra)%string end).


(** Editing the params box does not refit: the result shown is not the one for that text. *)
Theorem C68_params_refuted : ~ (forall (D : Type) fit a b c names s0 l s,
  new_quartiles D fit a b c names = (s0, None) -> qrun D fit s0 l = (s, []) -> up_to_date fit s (q_extra s)).
Proof.
  intro H.
  assert (L12 : xltb (Fin 1) (Fin 2) = true) by (cbn [xltb]; apply Rltb_true; lra).
  assert (L23 : xltb (Fin 2) (Fin 3) = true) by (cbn [xltb]; apply Rltb_true; lra).
  specialize (H string toy_fit (Fin 1) (Fin 2) (Fin 3) (Some ["Normal"])).
  unfold new_quartiles, match_distribution in H. cbn [q1 q2 q3] in H. rewrite L12, L23 in H. cbn [andb] in H.
  specialize (H _ [QExtra "(mu=0)"] _ eq_refl eq_refl).
  destruct H as [H _]. cbn [q1 q2 q3 q_set q_dist q_extra q_names] in H.
  destruct (H (conj L12 L23)) as [ds [N F]].
  inversion N as [|n c l' cs E N']. subst n l' ds. unfold toy_fit in F. rewrite E in F. discriminate.
Qed.

Example C68_history : exists s, qrun string toy_fit (fst (new_quartiles string toy_fit (Fin 1) (Fin 2) (Fin 3) None))
    [QSet1 (Fin 2); QNames ["Gamma"; "Poisson"]; QSet1 (Fin 0); QKind "cdf"] = (s, []) /\
  q_dist s = Some "Gamma" /\ q_panel s = Drawn "Gamma" "cdf".
Proof.
  assert (L12 : xltb (Fin 1) (Fin 2) = true) by (cbn [xltb]; apply Rltb_true; lra).
  assert (L02 : xltb (Fin 0) (Fin 2) = true) by (cbn [xltb]; apply Rltb_true; lra).
  assert (L23 : xltb (Fin 2) (Fin 3) = true) by (cbn [xltb]; apply Rltb_true; lra).
  assert (L22 : xltb (Fin 2) (Fin 2) = false) by (cbn [xltb]; apply Rltb_false; lra).
  assert (E21 : xeqb (Fin 2) (Fin 1) = false) by (cbn [xeqb]; apply Reqb_false; lra).
  assert (E02 : xeqb (Fin 0) (Fin 2) = false) by (cbn [xeqb]; apply Reqb_false; lra).
  unfold new_quartiles, match_distribution. cbn [q1 q2 q3]. rewrite L12, L23. cbn [andb].
  set (S0 := fst _). cbn [qrun qstep]. subst S0.
  cbn [get_distributions q_names].
  assert (G : exists ds, build_all default_selection = Ok (Fam FamModel.Normal :: ds)) by (vm_compute; eexists; reflexivity).
  destruct G as [ds G]. rewrite G. cbn [bind toy_fit q1 q2 q3 q_extra q_set fst q_kind q_names q_dist q_panel].
  rewrite E21. unfold match_distribution at 1. cbn [q1 q2 q3]. rewrite L22. cbn [andb q_set q1 q2 q3 q_extra q_kind q_names].
  replace (names_eqb ["Gamma"; "Poisson"] default_selection) with false by (vm_compute; reflexivity).
  unfold match_distribution at 1. cbn [q1 q2 q3]. rewrite L22. cbn [andb q_set q1 q2 q3 q_extra q_kind q_names].
  rewrite E02. unfold match_distribution at 1. cbn [q1 q2 q3]. rewrite L02, L23.
  cbn [andb q_set q1 q2 q3 q_extra q_kind q_names].
  replace (get_distributions (Some ["Gamma"; "Poisson"])) with (Ok [Fam FamModel.Gamma; Fam FamModel.Poisson]) by (vm_compute; reflexivity).
  cbn [bind toy_fit q_set q1 q2 q3 q_extra q_kind q_names q_dist q_panel].
  replace (String.eqb "cdf" "pdf") with false by reflexivity.
  unfold match_distribution. cbn [q1 q2 q3]. rewrite L02, L23.
  cbn [andb q_set q1 q2 q3 q_extra q_kind q_names].
  replace (get_distributions (Some ["Gamma"; "Poisson"])) with (Ok [Fam FamModel.Gamma; Fam FamModel.Poisson]) by (vm_compute; reflexivity).
  eexists. cbn [bind toy_fit q_set q1 q2 q3 q_extra q_kind q_names q_dist q_panel]. split; [reflexivity|]. split; reflexivity.
Qed.

(* ------------------------------------------------------------------ C69 *)
Open Scope R_scope.
Lemma Reqb_eq : forall a b, Reqb a b = true -> a = b.
Proof. intros a b H. destruct (Reqb_spec a b); [assumption|discriminate]. Qed.
Section Rl.
Variable D : Type.
Variable fit : list cls -> pdf_result -> R -> R -> string -> res (option D).

(** Everything but the result is as before. *)
Definition same_controls (s s' : roulette D) : Prop :=
  l_min s' = l_min s /\ l_max s' = l_max s /\ r_grid s' = r_grid s /\ w_min s' = w_min s /\ w_max s' = w_max s /\
  w_rows s' = w_rows s /\ w_cols s' = w_cols s /\ r_extra s' = r_extra s /\ r_kind s' = r_kind s /\
  r_options s' = r_options s /\ r_names s' = r_names s /\ b_cont s' = b_cont s /\ b_disc s' = b_disc s /\ b_none s' = b_none s.

Lemma leave_controls : forall s, same_controls s (fst (on_leave_fig D fit s)).
Proof.
  intro s. unfold same_controls, on_leave_fig, r_result.
  destruct (weights_to_pdf _ _ _) as [p|e]; [|cbn; intuition].
  destruct (Nat.ltb 1 (filled p)); [|cbn; intuition].
  destruct (get_distributions _) as [[|c ds]|e]; [cbn; intuition| |cbn; intuition].
  destruct (fit _ _ _ _ _) as [[d|]|e]; cbn; intuition.
Qed.

(** Releasing the mouse refits: the inputs reported are those of the chips and limits shown, the result is the best fit to
    them among the selected names (nothing without a selection or with fewer than two columns of chips), and the panel
    is cleared or shows the result in the chosen representation. *)
Theorem C69_release : forall s s', rstep D fit s RRelease = (s', None) ->
  same_controls s s' /\
  exists p, weights_to_pdf (r_grid s) (l_min s) (l_max s) = Ok p /\
    r_inputs s' = Some (mkInputs (x_vals p) (epdf p) (chips (r_grid s)) (l_min s) (l_max s) (nrows (r_grid s)) (ncols (r_grid s))) /\
    ((filled p <= 1)%nat -> r_dist s' = None /\ r_panel s' = Blank) /\
    ((1 < filled p)%nat -> r_names s = [] -> r_dist s' = None) /\
    ((1 < filled p)%nat -> r_names s <> [] ->
       (exists ds, named (r_names s) ds /\ fit ds p (l_min s) (l_max s) (r_extra s) = Ok (r_dist s')) /\
       match r_dist s' with Some d => r_panel s' = Drawn d (r_kind s) | None => exists m, r_panel s' = Message m end).
Proof.
  intros s s' H. cbn [rstep] in H. split. { pose proof (leave_controls s) as K. now rewrite H in K. }
  unfold on_leave_fig in H. destruct (weights_to_pdf _ _ _) as [p|e] eqn:W; [|discriminate]. exists p. split; [reflexivity|].
  destruct (Nat.ltb 1 (filled p)) eqn:F.
  - apply Nat.ltb_lt in F.
    destruct (get_distributions _) as [ds|e] eqn:G; [|discriminate]. cbn [get_distributions] in G. apply build_all_named in G as [G _].
    destruct ds as [|c ds].
    + injection H as <-. inversion G as [E|]. cbn. repeat split; auto; try lia; intros; congruence.
    + assert (r_names s <> []) by (inversion G; congruence).
      destruct (fit _ _ _ _ _) as [[d|]|e] eqn:Fi; try discriminate; injection H as <-; cbn;
        repeat split; auto; try lia; try (intros; congruence); eauto.
  - apply Nat.ltb_ge in F. injection H as <-. cbn. repeat split; auto; lia.
Qed.

(** What the boxes show is what is in force. *)
Definition boxes_in_force (s : roulette D) : Prop :=
  l_min s = w_min s /\ l_max s = w_max s /\ nrows (r_grid s) = w_rows s /\ ncols (r_grid s) = w_cols s.

Lemma click_dims : forall g i x y, nrows (click g i x y) = nrows g /\ ncols (click g i x y) = ncols g.
Proof.
  intros. unfold click. destruct i; [|auto]. destruct (_ && _); [|auto]. destruct (_ <=? _)%Z; cbn; auto.
Qed.

Lemma handle_controls : forall s, let s' := fst (handle_checkbox_change D fit s) in
  l_min s' = l_min s /\ l_max s' = l_max s /\ r_grid s' = r_grid s /\ w_min s' = w_min s /\ w_max s' = w_max s /\
  w_rows s' = w_rows s /\ w_cols s' = w_cols s /\ r_extra s' = r_extra s /\ r_kind s' = r_kind s /\ r_options s' = r_options s.
Proof.
  intros s. unfold handle_checkbox_change.
  set (s1 := if b_none s then _ else _).
  assert (K : l_min s1 = l_min s /\ l_max s1 = l_max s /\ r_grid s1 = r_grid s /\ w_min s1 = w_min s /\ w_max s1 = w_max s /\
    w_rows s1 = w_rows s /\ w_cols s1 = w_cols s /\ r_extra s1 = r_extra s /\ r_kind s1 = r_kind s /\ r_options s1 = r_options s)
    by (unfold s1; destruct (b_none s); cbn; auto 12).
  destruct (names_eqb _ _); [exact K|].
  pose proof (leave_controls (with_names D s1 (checked_names D s1))) as L. unfold same_controls in L. cbn [with_names l_min l_max r_grid w_min w_max w_rows w_cols r_extra r_kind r_options r_names b_cont b_disc b_none] in L.
  cbn zeta. destruct L as (L1&L2&L3&L4&L5&L6&L7&L8&L9&L10&_). rewrite L1, L2, L3, L4, L5, L6, L7, L8, L9, L10. exact K.
Qed.

Lemma step_boxes : forall s e, boxes_in_force s -> boxes_in_force (fst (rstep D fit s e)).
Proof.
  assert (LC : forall s0 s, l_min s = l_min s0 /\ l_max s = l_max s0 /\ r_grid s = r_grid s0 /\ w_min s = w_min s0 /\ w_max s = w_max s0 /\
    w_rows s = w_rows s0 /\ w_cols s = w_cols s0 -> boxes_in_force s0 -> boxes_in_force s).
  { unfold boxes_in_force. intros s0 s (A&B&C&E&F&G&H) (I&J&K&L). rewrite A, B, C, E, F, G, H. auto. }
  intros s e H. destruct e; cbn [rstep].
  - unfold boxes_in_force in *. cbn. pose proof (click_dims (r_grid s) inaxes x y) as [-> ->]. exact H.
  - apply (LC s); [|exact H]. pose proof (leave_controls s) as K. unfold same_controls in K. intuition.
  - destruct (Reqb _ _); [exact H|]. cbn. destruct (Reqb v _); unfold boxes_in_force; cbn; auto.
  - destruct (Reqb _ _); [exact H|]. unfold boxes_in_force; cbn; auto.
  - destruct (Z.eqb _ _); [exact H|]. unfold boxes_in_force; cbn; auto.
  - destruct (Z.eqb _ _); [exact H|]. unfold boxes_in_force; cbn; auto.
  - destruct (String.eqb _ _); [exact H|]. match goal with |- context [on_leave_fig _ _ ?x] => apply (LC s); [|exact H]; pose proof (leave_controls x) as K end.
    unfold same_controls in K. cbn in K. intuition.
  - destruct (String.eqb _ _); [exact H|]. match goal with |- context [on_leave_fig _ _ ?x] => apply (LC s); [|exact H]; pose proof (leave_controls x) as K end.
    unfold same_controls in K. cbn in K. intuition.
  - destruct (names_eqb _ _); [exact H|]. match goal with |- context [on_leave_fig _ _ ?x] => apply (LC s); [|exact H]; pose proof (leave_controls x) as K end.
    unfold same_controls in K. cbn in K. intuition.
  - destruct (eqb _ _); [exact H|]. match goal with |- context [handle_checkbox_change _ _ ?x] => apply (LC s); [|exact H]; pose proof (handle_controls x) as K end.
    cbn in K. intuition.
  - destruct (eqb _ _); [exact H|]. match goal with |- context [handle_checkbox_change _ _ ?x] => apply (LC s); [|exact H]; pose proof (handle_controls x) as K end.
    cbn in K. intuition.
  - destruct (eqb _ _); [exact H|]. match goal with |- context [handle_checkbox_change _ _ ?x] => apply (LC s); [|exact H]; pose proof (handle_controls x) as K end.
    cbn in K. intuition.
Qed.

Lemma run_invariant : forall (P : roulette D -> Prop), (forall s e, P s -> P (fst (rstep D fit s e))) ->
  forall l s, P s -> P (fst (rrun D fit s l)).
Proof.
  intros P K. induction l as [|e l IH]; intros s H; cbn [rrun]; [exact H|].
  pose proof (K s e H) as K1. destruct (rstep D fit s e) as [s1 x]. cbn [fst] in K1. pose proof (IH s1 K1) as K2.
  destruct (rrun D fit s1 l) as [s2 xs]. exact K2.
Qed.

(** Whatever the user does, with or without failures, the limits and the grid are those in the boxes, if the dimensions
    first asked for are acceptable to the boxes. *)
Theorem C69_boxes : forall x_min x_max nr nc names params l, (2 <= nr <= 100)%Z -> (2 <= nc <= 100)%Z ->
  boxes_in_force (fst (rrun D fit (new_roulette D x_min x_max nr nc names params) l)).
Proof.
  intros. apply run_invariant; [apply step_boxes|]. unfold boxes_in_force, new_roulette, clamp. cbn. repeat split; lia.
Qed.

(** Every event changes its own control and no other: what is typed in a box is what the box holds (the nearest number between 2 and 100 in the boxes for the dimensions),
    and typing the upper limit in the box of the lower one moves the upper one by 1. What the check boxes do to the names is in C69_checkboxes. *)
Theorem C69_own_control : forall s e s' x, rstep D fit s e = (s', x) ->
  w_min s' = match e with RMin v => v | _ => w_min s end /\
  w_max s' = match e with RMax v => v | RMin v => if Req_EM_T v (w_min s) then w_max s else if Req_EM_T v (w_max s) then v + 1 else w_max s | _ => w_max s end /\
  w_rows s' = match e with RRows n => Z.min (Z.max n 2) 100 | _ => w_rows s end /\
  w_cols s' = match e with RCols n => Z.min (Z.max n 2) 100 | _ => w_cols s end /\
  r_extra s' = match e with RExtra t => t | _ => r_extra s end /\
  r_kind s' = match e with RKind k => k | _ => r_kind s end /\
  r_options s' = r_options s /\
  match e with RNames l => r_names s' = l | RCont _ | RDisc _ | RNone _ => True | _ => r_names s' = r_names s end /\
  match e with
  | RCont b => b_none s' = b_none s /\ b_disc s' = (if b_none s && negb (eqb b (b_cont s)) then false else b_disc s)
  | RDisc b => b_none s' = b_none s /\ b_cont s' = (if b_none s && negb (eqb b (b_disc s)) then false else b_cont s)
  | RNone b => b_none s' = b
  | _ => b_cont s' = b_cont s /\ b_disc s' = b_disc s /\ b_none s' = b_none s
  end.
Proof using.
  assert (RQ : forall a b, Reqb a b = true -> a = b) by apply Reqb_eq.
  assert (HC : forall z, let z' := fst (handle_checkbox_change D fit z) in
     w_min z' = w_min z /\ w_max z' = w_max z /\ w_rows z' = w_rows z /\ w_cols z' = w_cols z /\ r_extra z' = r_extra z /\ r_kind z' = r_kind z /\ r_options z' = r_options z /\
     b_none z' = b_none z /\ b_cont z' = (if b_none z then false else b_cont z) /\ b_disc z' = (if b_none z then false else b_disc z)).
  { intros z z'. unfold z', handle_checkbox_change. set (y := if b_none z then _ else z).
    assert (Y : w_min y = w_min z /\ w_max y = w_max z /\ w_rows y = w_rows z /\ w_cols y = w_cols z /\ r_extra y = r_extra z /\ r_kind y = r_kind z /\ r_options y = r_options z /\
       b_none y = b_none z /\ b_cont y = (if b_none z then false else b_cont z) /\ b_disc y = (if b_none z then false else b_disc z)).
    { unfold y. destruct (b_none z) eqn:N; cbn; rewrite ?N; repeat split. }
    destruct Y as (Y1 & Y2 & Y3 & Y4 & Y5 & Y6 & Y7 & Y8 & Y9 & Y10). clearbody y.
    destruct (names_eqb _ _); [cbn [fst]; repeat split; assumption|].
    destruct (leave_controls (with_names D y (checked_names D y))) as (_ & _ & _ & L4 & L5 & L6 & L7 & L8 & L9 & L10 & _ & L12 & L13 & L14). cbn in L4, L5, L6, L7, L8, L9, L10, L12, L13, L14.
    rewrite L4, L5, L6, L7, L8, L9, L10, L12, L13, L14. repeat split; assumption. }
  intros s e s' x H. destruct e; cbn [rstep] in H.
  - injection H as <- _. repeat split.
  - destruct (leave_controls s) as (_ & _ & _ & L4 & L5 & L6 & L7 & L8 & L9 & L10 & L11 & L12 & L13 & L14). rewrite H in *. cbn [fst] in *. repeat split; assumption.
  - destruct (Reqb v (w_min s)) eqn:E.
    + injection H as <- _. apply RQ in E. subst v. destruct (Req_EM_T _ _); [|contradiction]. repeat split.
    + injection H as <- _. cbn [with_boxes w_max]. destruct (Req_EM_T v (w_min s)) as [->|N]; [rewrite Reqb_refl in E; discriminate|].
      destruct (Reqb v (w_max s)) eqn:F; [apply RQ in F; subst v; destruct (Req_EM_T _ _); [|contradiction]|destruct (Req_EM_T v (w_max s)) as [->|]; [rewrite Reqb_refl in F; discriminate|]]; repeat split.
  - destruct (Reqb v (w_max s)) eqn:E; injection H as <- _; [apply RQ in E; subst v|]; repeat split.
  - change (Z.min (Z.max n 2) 100) with (clamp n). destruct (Z.eqb_spec (clamp n) (w_rows s)) as [E|E]; injection H as <- _; [rewrite E|]; repeat split.
  - change (Z.min (Z.max n 2) 100) with (clamp n). destruct (Z.eqb_spec (clamp n) (w_cols s)) as [E|E]; injection H as <- _; [rewrite E|]; repeat split.
  - destruct (String.eqb_spec t (r_extra s)) as [->|N]; [injection H as <- _; repeat split|].
    match type of H with on_leave_fig _ _ ?z = _ => destruct (leave_controls z) as (_ & _ & _ & L4 & L5 & L6 & L7 & L8 & L9 & L10 & L11 & L12 & L13 & L14) end. rewrite H in *. cbn [fst] in *. repeat split; assumption.
  - destruct (String.eqb_spec k (r_kind s)) as [->|N]; [injection H as <- _; repeat split|].
    match type of H with on_leave_fig _ _ ?z = _ => destruct (leave_controls z) as (_ & _ & _ & L4 & L5 & L6 & L7 & L8 & L9 & L10 & L11 & L12 & L13 & L14) end. rewrite H in *. cbn [fst] in *. repeat split; assumption.
  - unfold names_eqb in H. destruct (list_eq_dec _ _ _) as [->|N]; [injection H as <- _; repeat split|].
    match type of H with on_leave_fig _ _ ?z = _ => destruct (leave_controls z) as (_ & _ & _ & L4 & L5 & L6 & L7 & L8 & L9 & L10 & L11 & L12 & L13 & L14) end. rewrite H in *. cbn [fst] in *. repeat split; assumption.
  - destruct (eqb b (b_cont s)) eqn:E; cbn [negb]; [injection H as <- _; rewrite andb_false_r; repeat split|]. rewrite andb_true_r.
    match type of H with handle_checkbox_change _ _ ?z = _ => destruct (HC z) as (K1 & K2 & K3 & K4 & K5 & K6 & K7 & K8 & K9 & K10) end. rewrite H in *. cbn in K1, K2, K3, K4, K5, K6, K7, K8, K9, K10. repeat split; assumption.
  - destruct (eqb b (b_disc s)) eqn:E; cbn [negb]; [injection H as <- _; rewrite andb_false_r; repeat split|]. rewrite andb_true_r.
    match type of H with handle_checkbox_change _ _ ?z = _ => destruct (HC z) as (K1 & K2 & K3 & K4 & K5 & K6 & K7 & K8 & K9 & K10) end. rewrite H in *. cbn in K1, K2, K3, K4, K5, K6, K7, K8, K9, K10. repeat split; assumption.
  - destruct (eqb b (b_none s)) eqn:E; [apply eqb_prop in E; subst b; injection H as <- _; repeat split|].
    match type of H with handle_checkbox_change _ _ ?z = _ => destruct (HC z) as (K1 & K2 & K3 & K4 & K5 & K6 & K7 & K8 & K9 & K10) end. rewrite H in *. cbn in K1, K2, K3, K4, K5, K6, K7, K8, K9, K10. repeat split; assumption.
Qed.

(** A change of the lower limit never leaves the two limits equal. *)
Theorem C69_lower_limit : forall s v s', rstep D fit s (RMin v) = (s', None) -> w_min s <> w_max s ->
  w_min s' = v /\ w_min s' <> w_max s' /\ (v <> w_max s -> w_max s' = w_max s).
Proof.
  intros s v s' H N. cbn [rstep] in H. destruct (Reqb v (w_min s)) eqn:E.
  - injection H as <-. apply Reqb_eq in E. subst v. auto.
  - injection H as <-. cbn [with_boxes w_max]. destruct (Reqb v (w_max s)) eqn:F.
    + apply Reqb_eq in F. subst v. cbn. split; [reflexivity|]. split; [lra|]. intro K. now contradiction K.
    + assert (v <> w_max s) by (intros ->; rewrite Reqb_refl in F; discriminate). cbn. auto.
Qed.

(** Changing a limit or a dimension empties the grid and the panel. *)
Theorem C69_resize : forall s e s', rstep D fit s e = (s', None) ->
  (exists v, e = RMin v /\ v <> w_min s) \/ (exists v, e = RMax v /\ v <> w_max s) \/
  (exists n, e = RRows n /\ (2 <= n <= 100)%Z /\ n <> w_rows s) \/ (exists n, e = RCols n /\ (2 <= n <= 100)%Z /\ n <> w_cols s) ->
  (forall c, weights (r_grid s') c = 0%Z) /\ r_panel s' = Blank /\
  match e with RMin v => l_min s' = v | RMax v => l_max s' = v | RRows n => nrows (r_grid s') = n | RCols n => ncols (r_grid s') = n | _ => False end.
Proof.
  assert (C : forall n, (2 <= n <= 100)%Z -> clamp n = n) by (intros; unfold clamp; lia).
  intros s e s' H [[v [-> N]]|[[v [-> N]]|[[n [-> [B N]]]|[n [-> [B N]]]]]]; cbn [rstep] in H.
  - assert (Reqb v (w_min s) = false) as E by now apply Reqb_false. rewrite E in H. injection H as <-. cbn [with_boxes w_max w_min w_rows w_cols]. destruct (Reqb v (w_max s)); repeat split.
  - assert (Reqb v (w_max s) = false) as E by now apply Reqb_false. rewrite E in H. injection H as <-. repeat split.
  - rewrite C in H by assumption. apply Z.eqb_neq in N. rewrite N in H. injection H as <-. repeat split.
  - rewrite C in H by assumption. apply Z.eqb_neq in N. rewrite N in H. injection H as <-. repeat split.
Qed.

(** Ticking or unticking a box selects exactly the offered names of the ticked kinds, each once; none while None is ticked. *)
Definition is_box (e : revent) (s : roulette D) : Prop :=
  match e with RCont b => b <> b_cont s | RDisc b => b <> b_disc s | RNone b => b <> b_none s | _ => False end.

Lemma in_listed : forall options l n, In n (listed options l) <-> In n options /\ exists c, In c l /\ class_name c = n.
Proof.
  intros. unfold listed. rewrite filter_In, in_map_iff, existsb_exists. split.
  - intros [[c [A B]] [m [C E]]]. apply String.eqb_eq in E. subst. eauto.
  - intros [A [c [B C]]]. split; [eauto|]. exists n. split; [assumption|apply String.eqb_refl].
Qed.
Lemma nodup_names : NoDup (map class_name (all_continuous ++ all_discrete)).
Proof.
  apply FinFun.Injective_map_NoDup; [exact class_name_inj|].
  unfold all_continuous, all_discrete. cbn [map app].
  repeat (constructor; [cbn [In]; intuition discriminate|]). constructor.
Qed.
Lemma nodup_right : forall (a b : list string), NoDup (a ++ b) -> NoDup b.
Proof. induction a; intros b H; [exact H|]. inversion H. auto. Qed.
Lemma nodup_left : forall (a b : list string), NoDup (a ++ b) -> NoDup a.
Proof.
  induction a as [|x a IH]; intros b H; [constructor|]. inversion H as [|? ? N H']. constructor; [|exact (IH b H')].
  intro K. apply N, in_or_app. now left.
Qed.
Lemma nodup_checked : forall s, NoDup (checked_names D s).
Proof.
  intro s. unfold checked_names. pose proof nodup_names as N. rewrite map_app in N.
  assert (A : NoDup (map class_name all_continuous)) by exact (nodup_left _ _ N).
  assert (B : NoDup (map class_name all_discrete)) by exact (nodup_right _ _ N).
  destruct (b_none s); [constructor|]. destruct (b_cont s), (b_disc s); rewrite ?app_nil_r; cbn [app]; try constructor;
    try (apply NoDup_filter; assumption).
  unfold listed. rewrite <- filter_app. now apply NoDup_filter.
Qed.

Lemma handle_names : forall s, let s' := fst (handle_checkbox_change D fit s) in
  r_names s' = checked_names D s' /\ b_none s' = b_none s /\
  (b_none s = true -> b_cont s' = false /\ b_disc s' = false) /\ (b_none s = false -> b_cont s' = b_cont s /\ b_disc s' = b_disc s).
Proof.
  intro s. unfold handle_checkbox_change. set (s1 := if b_none s then _ else _).
  assert (K : b_none s1 = b_none s /\ (b_none s = true -> b_cont s1 = false /\ b_disc s1 = false) /\
              (b_none s = false -> b_cont s1 = b_cont s /\ b_disc s1 = b_disc s)).
  { unfold s1. destruct (b_none s) eqn:E; cbn; repeat split; auto; try discriminate. }
  unfold names_eqb. destruct (list_eq_dec string_dec _ _) as [E|E].
  - cbn [fst]. cbn zeta. repeat split; try tauto. now rewrite <- E.
  - pose proof (leave_controls (with_names D s1 (checked_names D s1))) as L. unfold same_controls in L.
    cbn [with_names l_min l_max r_grid w_min w_max w_rows w_cols r_extra r_kind r_options r_names b_cont b_disc b_none] in L.
    cbn zeta. set (s2 := fst (on_leave_fig D fit (with_names D s1 (checked_names D s1)))) in *.
    destruct L as (_&_&_&_&_&_&_&_&_&L10&L11&L12&L13&L14). rewrite L11, L14, L12, L13.
    split; [|exact K]. unfold checked_names. now rewrite L10, L12, L13, L14.
Qed.

Theorem C69_checkboxes : forall s e s' x, rstep D fit s e = (s', x) -> is_box e s ->
  NoDup (r_names s') /\
  (forall n, In n (r_names s') <-> In n (r_options s) /\ b_none s' = false /\
     ((b_cont s' = true /\ exists c, In c all_continuous /\ class_name c = n) \/
      (b_disc s' = true /\ exists c, In c all_discrete /\ class_name c = n))) /\
  (b_none s' = true -> b_cont s' = false /\ b_disc s' = false).
Proof.
  assert (M : forall s, let s' := fst (handle_checkbox_change D fit s) in
    NoDup (r_names s') /\
    (forall n, In n (r_names s') <-> In n (r_options s) /\ b_none s' = false /\
     ((b_cont s' = true /\ exists c, In c all_continuous /\ class_name c = n) \/
      (b_disc s' = true /\ exists c, In c all_discrete /\ class_name c = n))) /\
    (b_none s' = true -> b_cont s' = false /\ b_disc s' = false)).
  { intros s s'. pose proof (handle_names s) as K. cbn zeta in K. fold s' in K. destruct K as (K1&K2&K3&K4).
    pose proof (handle_controls s) as O. cbn zeta in O. fold s' in O. destruct O as (_&_&_&_&_&_&_&_&_&O).
    split; [rewrite K1; apply nodup_checked|]. split; [|intro B; apply K3; congruence].
    intro n. rewrite K1. unfold checked_names. rewrite O.
    destruct (b_none s') eqn:BN. { cbn [In]. intuition discriminate. }
    rewrite in_app_iff. destruct (b_cont s'), (b_disc s'); cbn [In]; rewrite ?in_listed; intuition discriminate. }
  intros s e s' x H B. destruct e; cbn [is_box] in B; try contradiction; cbn [rstep] in H.
  all: match type of H with (if eqb ?b ?c then _ else _) = _ => assert (E : eqb b c = false) by (now apply eqb_false_iff); rewrite E in H end.
  all: match type of H with handle_checkbox_change _ _ ?z = _ => specialize (M z) end; rewrite H in M; exact M.
Qed.

(** None is never ticked together with another box. *)
Theorem C69_none_excludes : forall x_min x_max nr nc names params l,
  let s := fst (rrun D fit (new_roulette D x_min x_max nr nc names params) l) in
  b_none s = true -> b_cont s = false /\ b_disc s = false.
Proof.
  intros. revert H. apply (run_invariant (fun s => b_none s = true -> b_cont s = false /\ b_disc s = false)).
  2: { cbn. discriminate. }
  clear. intros s e H.
  assert (LC : forall s0, (b_none s0 = true -> b_cont s0 = false /\ b_disc s0 = false) -> let s1 := fst (on_leave_fig D fit s0) in b_none s1 = true -> b_cont s1 = false /\ b_disc s1 = false).
  { intros s0 K. pose proof (leave_controls s0) as L. unfold same_controls in L. cbn zeta. destruct L as (_&_&_&_&_&_&_&_&_&_&_&L12&L13&L14).
    now rewrite L12, L13, L14. }
  assert (HC : forall s0, let s1 := fst (handle_checkbox_change D fit s0) in b_none s1 = true -> b_cont s1 = false /\ b_disc s1 = false).
  { intros s0. pose proof (handle_names s0) as (K1&K2&K3&K4). cbn zeta. intro B. apply K3. congruence. }
  destruct e; cbn [rstep]; try exact H; try (apply LC; exact H);
    match goal with |- context [if ?c then (s, _) else _] => destruct c; [exact H|] end;
    try exact H; try (apply LC; exact H); try apply HC.
  cbn [fst]. destruct (Reqb _ _); exact H.
Qed.

(** The picture in the panel is that of the result, in the chosen representation, as long as nothing fails and some name stays
    selected. *)
Definition picture (s : roulette D) : Prop :=
  forall d k, r_panel s = Drawn d k -> r_dist s = Some d /\ k = r_kind s.
Lemma leave_picture : forall s s', on_leave_fig D fit s = (s', None) -> r_names s <> [] -> picture s'.
Proof.
  intros s s' H N. unfold on_leave_fig in H. destruct (weights_to_pdf _ _ _) as [p|e]; [|discriminate].
  destruct (Nat.ltb 1 (filled p)); [|injection H as <-; intros d k E; discriminate E].
  destruct (get_distributions _) as [ds|e] eqn:G; [|discriminate]. cbn [get_distributions] in G. apply build_all_named in G as [G _].
  destruct ds as [|c ds]; [inversion G; congruence|].
  destruct (fit _ _ _ _ _) as [[d|]|e]; try discriminate; injection H as <-; intros d' k E; cbn in *; [|discriminate].
  injection E as <- <-. auto.
Qed.
Theorem C69_picture : forall x_min x_max nr nc names params l s,
  rrun D fit (new_roulette D x_min x_max nr nc names params) l = (s, []) -> names <> Some [] ->
  Forall (fun e => match e with RNames [] | RCont _ | RDisc _ | RNone _ => False | _ => True end) l -> picture s.
Proof.
  intros x_min x_max nr nc names params l s H NE F.
  assert (K : forall l s0 s, picture s0 -> r_names s0 <> [] ->
     Forall (fun e => match e with RNames [] | RCont _ | RDisc _ | RNone _ => False | _ => True end) l ->
     rrun D fit s0 l = (s, []) -> picture s).
  { clear. induction l as [|e l IH]; intros s0 s P N F H; cbn [rrun] in H; [now injection H as <-|].
    destruct (rstep D fit s0 e) as [s1 x] eqn:S. destruct (rrun D fit s1 l) as [s2 xs] eqn:R.
    destruct x; [discriminate|]. injection H as <- ->. apply Forall_cons_iff in F as [Fe F].
    assert (picture s1 /\ r_names s1 <> []) as [P1 N1]; [|exact (IH s1 _ P1 N1 F R)].
    assert (L : forall z, on_leave_fig D fit z = (s1, None) -> r_names z <> [] -> picture s1 /\ r_names s1 <> []).
    { intros z Hz Nz. split; [exact (leave_picture z s1 Hz Nz)|]. pose proof (leave_controls z) as K. rewrite Hz in K. unfold same_controls in K. cbn [fst] in K.
      destruct K as (_&_&_&_&_&_&_&_&_&_&->&_). exact Nz. }
    destruct e; cbn [rstep] in S; try contradiction.
    - injection S as <-. split; assumption.
    - exact (L _ S N).
    - destruct (Reqb _ _); injection S as <-; [split; assumption|]. cbn [fst]. destruct (Reqb _ _); (split; [intros d k E; discriminate E|exact N]).
    - destruct (Reqb _ _); injection S as <-; [split; assumption|]. (split; [intros d k E; discriminate E|exact N]).
    - destruct (Z.eqb _ _); injection S as <-; [split; assumption|]. (split; [intros d k E; discriminate E|exact N]).
    - destruct (Z.eqb _ _); injection S as <-; [split; assumption|]. (split; [intros d k E; discriminate E|exact N]).
    - destruct (String.eqb _ _); [injection S as <-; split; assumption|]. exact (L _ S N).
    - destruct (String.eqb _ _); [injection S as <-; split; assumption|]. exact (L _ S N).
    - destruct (names_eqb _ _); [injection S as <-; split; assumption|]. apply (L _ S). cbn. destruct l0; [contradiction|discriminate]. }
  apply (K l (new_roulette D x_min x_max nr nc names params) s); auto.
  - intros d k E. discriminate E.
  - cbn. destruct names as [[|n r]|]; discriminate || congruence.
Qed.
End Rl.

Definition toy_epdf (ds : list cls) (_ : pdf_result) (_ _ : R) (extra : string) : res (option string) :=
  Ok (match ds with [] => None | c :: _ => Some (class_name c ++ extra)%string end).
Definition two_chips : list revent := [RPress true (1#2) (1#2); RPress true (3#2) (1#2); RRelease].
Definition session : roulette string := new_roulette string 0 10 5 5 (Some ["Normal"; "Poisson"]) "".

Lemma two_chips_run : exists s i, rrun string toy_epdf session two_chips = (s, []) /\ r_dist s = Some "Normal" /\
  r_panel s = Drawn "Normal" "pdf" /\ r_inputs s = Some i /\ i_cols i = 5%Z /\ i_chips i = 2%Z /\ i_max i = 10 /\
  w_cols s = 5%Z /\ w_min s = 0 /\ w_max s = 10 /\ w_rows s = 5%Z /\ r_names s = ["Normal"; "Poisson"] /\
  r_options s = ["Normal"; "Poisson"] /\ b_none s = false /\ b_cont s = false /\ b_disc s = false /\
  l_min s = 0 /\ l_max s = 10 /\ exists p, weights_to_pdf (r_grid s) 0 10 = Ok p /\ filled p = 2%nat.
Proof.
  unfold two_chips, session. cbn [rrun rstep]. unfold on_leave_fig.
  set (g := r_grid _). cbn [with_grid new_roulette l_min l_max] in *.
  assert (W : exists p, weights_to_pdf g 0 10 = Ok p /\ filled p = 2%nat).
  { unfold weights_to_pdf. replace (ncols g - 1 =? 0)%Z with false by (vm_compute; reflexivity). cbn zeta.
    replace (filter nonzero (weight_items g)) with [(0, 1); (1, 1)]%Z by (vm_compute; reflexivity).
    cbn [List.length negb andb Nat.eqb].
    replace (fold_right Z.add 0%Z (map snd (weight_items g)) =? 0)%Z with false by (vm_compute; reflexivity).
    eexists. split; [reflexivity|]. reflexivity. }
  destruct W as [p [W F]]. rewrite W, F. cbn [Nat.ltb Nat.leb].
  match goal with |- context [get_distributions ?z] =>
    replace (get_distributions z) with (Ok [Fam FamModel.Normal; Fam FamModel.Poisson]) by (vm_compute; reflexivity) end.
  unfold toy_epdf. eexists. eexists. split; [reflexivity|].
  cbn [r_result with_grid new_roulette r_dist r_panel r_inputs r_extra r_kind w_cols w_min w_max w_rows r_names r_options b_none b_cont b_disc l_min l_max inputs_of r_grid].
  split; [reflexivity|]. split; [reflexivity|]. split; [reflexivity|].
  cbn [i_cols i_chips i_max]. unfold inputs_of. cbn [i_cols i_chips i_max r_grid with_grid new_roulette l_max]. fold g.
  split; [vm_compute; reflexivity|]. split; [vm_compute; reflexivity|].
  repeat (split; [reflexivity|]). exists p. split; [exact W|exact F].
Qed.

(** Non-trivial sessions meet the hypotheses of the theorems above. *)
Example C69_session : exists s, rrun string toy_epdf session two_chips = (s, []) /\ r_dist s = Some "Normal" /\ picture string s /\ boxes_in_force string s.
Proof.
  destruct two_chips_run as (s & i & H & Hd & _). exists s. split; [exact H|]. split; [exact Hd|]. split.
  - refine (C69_picture string toy_epdf 0 10 5 5 (Some ["Normal"; "Poisson"]) "" two_chips s H _ _); [discriminate|].
    unfold two_chips. repeat constructor.
  - pose proof (C69_boxes string toy_epdf 0 10 5 5 (Some ["Normal"; "Poisson"]) "" two_chips ltac:(lia) ltac:(lia)) as K.
    fold session in K. rewrite H in K. exact K.
Qed.

(** After a change of the grid the result and the inputs are still those of the chips that were wiped out. *)
Theorem C69_resize_refuted : ~ (forall D fit x_min x_max nr nc names params l s,
  rrun D fit (new_roulette D x_min x_max nr nc names params) l = (s, []) ->
  (forall d i, r_dist s = Some d -> r_inputs s = Some i -> i_cols i = ncols (r_grid s) /\ exists c, weights (r_grid s) c <> 0%Z)).
Proof.
  intro H. destruct two_chips_run as (s & i & E & Hd & Hp & Hi & Hc & _ & _ & Hw & _).
  assert (E2 : rrun string toy_epdf session (two_chips ++ [RCols 7]) =
               (update_grid string (with_boxes string s (w_min s) (w_max s) (w_rows s) 7), [])).
  { assert (A : forall l l' s0 s1, rrun string toy_epdf s0 l = (s1, []) -> rrun string toy_epdf s0 (l ++ l') = rrun string toy_epdf s1 l').
    { induction l as [|e l IH]; intros l' s0 s1 K; cbn [rrun app] in *; [now injection K as <-|].
      destruct (rstep _ _ s0 e) as [s2 x]. destruct (rrun _ _ s2 l) as [s3 xs] eqn:R. destruct x; [discriminate|].
      injection K as <- ->. rewrite (IH l' _ _ R). now destruct (rrun _ _ s3 l'). }
    rewrite (A _ _ _ _ E). cbn [rrun rstep]. rewrite Hw. reflexivity. }
  unfold session in E2. specialize (H _ _ _ _ _ _ _ _ _ _ E2 "Normal" i Hd Hi) as [_ [c K]]. apply K. reflexivity.
Qed.

(** With nothing selected the result is removed, but the picture of the last one stays. *)
Theorem C69_empty_selection_refuted : ~ (forall D fit s s', rstep D fit s (RNames []) = (s', None) ->
  picture D s -> picture D s').
Proof.
  intro H. destruct two_chips_run as (s & i & E & Hd & Hp & Hi & _ & _ & _ & _ & _ & _ & _ & Hn & _ & _ & _ & _ & L1 & L2 & p & W & F).
  specialize (H string toy_epdf s). cbn [rstep] in H. rewrite Hn in H. cbn [names_eqb] in H.
  replace (names_eqb [] ["Normal"; "Poisson"]) with false in H by (vm_compute; reflexivity).
  unfold on_leave_fig in H. cbn [with_names r_grid l_min l_max r_names] in H. rewrite L1, L2, W, F in H.
  cbn [Nat.ltb Nat.leb get_distributions build_all] in H.
  specialize (H _ eq_refl). destruct C69_session as (s0 & E0 & _ & P & _). rewrite E in E0. injection E0 as <-.
  destruct (H P "Normal" "pdf" Hp) as [K _]. discriminate K.
Qed.

(** While None is ticked the other boxes cannot be ticked. *)
Theorem C69_none_sticky_refuted : ~ (forall D fit s s' x, rstep D fit s (RCont true) = (s', x) -> b_cont s' = true).
Proof.
  intro H. set (s := with_checks string (with_names string session []) false false true).
  specialize (H string toy_epdf s). assert (K : rstep string toy_epdf s (RCont true) = (s, None)) by (vm_compute; reflexivity).
  specialize (H _ _ K). discriminate H.
Qed.

(** Dimensions the boxes do not accept are used all the same: 150 columns are drawn while the box says 100; with one column
    (the box says 2) nothing can ever be elicited. *)
Theorem C69_dimensions_refuted :
  ~ (forall D fit x_min x_max nr nc names params l, boxes_in_force D (fst (rrun D fit (new_roulette D x_min x_max nr nc names params) l))) /\
  (forall D fit x_min x_max nr names params,
     rstep D fit (new_roulette D x_min x_max nr 1 names params) RRelease =
       (new_roulette D x_min x_max nr 1 names params, Some ZeroDivisionError) /\
     w_cols (new_roulette D x_min x_max nr 1 names params) = 2%Z).
Proof.
  split.
  - intro H. specialize (H string toy_epdf 0 10 5%Z 150%Z None "" []). destruct H as (_ & _ & _ & H). discriminate H.
  - intros. split; reflexivity.
Qed.

(** Nothing prevents the upper limit from being set to the lower one: then every chip has the same value. *)
Theorem C69_upper_limit_refuted :
  ~ (forall D fit s v s', rstep D fit s (RMax v) = (s', None) -> w_min s <> w_max s -> w_min s' <> w_max s').
Proof.
  intro H. specialize (H string toy_epdf session 0 (update_grid string (with_boxes string session 0 0 5 5))).
  apply H.
  - cbn [rstep session new_roulette w_max]. rewrite Reqb_false by lra. reflexivity.
  - cbn. lra.
  - reflexivity.
Qed.

Example C69_checkbox_example : exists s, rrun string toy_epdf session [RDisc true; RCont true; RDisc false; RNone true] = (s, []) /\
  r_names s = [] /\ b_cont s = false.
Proof. eexists. split; [vm_compute; reflexivity|]. split; reflexivity. Qed.

Print Assumptions C68_all_names_refuted.
Print Assumptions C68_names.
Print Assumptions C68_names_refused.
Print Assumptions C68_opens.
Print Assumptions C68_boxes.
Print Assumptions C69_own_control.
Print Assumptions C68_current.
Print Assumptions C68_some_text.
Print Assumptions C68_params_refuted.
Print Assumptions C69_release.
Print Assumptions C69_boxes.
Print Assumptions C69_checkboxes.
Print Assumptions C69_picture.
Print Assumptions C69_resize_refuted.
Print Assumptions C69_dimensions_refuted.
