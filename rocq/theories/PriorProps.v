(** C70: the priors ppa returns. *)
From Coq Require Import List Bool String Arith Permutation Sorting.Sorted Lia Reals Lra.
From Verif Require Import Base XR SelProps BackSpec BackProps PriorModel.
Import ListNotations.
Open Scope string_scope.
Open Scope list_scope.

(** The draws of a variable: the first entry of that name (names are dictionary keys). *)
Definition draws_of {Sample} (subset : list (string * Sample)) (name : string) (s : Sample) : Prop :=
  exists a b, subset = a ++ (name, s) :: b /\ ~ In name (map fst a).

Lemma lookup_draws : forall Sample (subset : list (string * Sample)) n s, lookup Sample subset n = Ok s -> draws_of subset n s.
Proof.
  intros Sample subset n s H. unfold lookup in H. destruct (find _ subset) as [[k v]|] eqn:F; [|discriminate]. injection H as <-.
  induction subset as [|[k' v'] r IH]; [discriminate|]. cbn [find fst] in F. destruct (String.eqb k' n) eqn:E.
  - injection F as -> ->. apply String.eqb_eq in E. subst k. exists [], r. split; [reflexivity|intros []].
  - destruct (IH F) as (a & b & -> & N). exists ((k', v') :: a), b. split; [reflexivity|]. cbn [map fst In]. apply String.eqb_neq in E. intuition.
Qed.

Lemma f2_nth : forall A B (P : A -> B -> Prop) xs ys, Forall2 P xs ys ->
  forall i x, nth_error xs i = Some x -> exists y, nth_error ys i = Some y /\ P x y.
Proof.
  intros A B P xs ys H. induction H; intros [|i] z Hz; cbn in *; try discriminate; eauto.
  injection Hz as <-. eauto.
Qed.
Lemma f2_weaken : forall A B (P Q : A -> B -> Prop) xs ys, (forall a b, P a b -> Q a b) -> Forall2 P xs ys -> Forall2 Q xs ys.
Proof. intros A B P Q xs ys H F. induction F; constructor; auto. Qed.

Section P.
Variables (Obj Sample Param : Type).
Variables cls kind : Obj -> string.
Variable default : string -> res Obj.
Variable fit_mle : Obj -> Sample -> res Obj.
Variable fit : Obj -> Sample -> res (Obj * xr).
Variable argsort : list xr -> list nat.
Variable params : Obj -> list Param.
Variable set_order : list string -> list string.

Notation back := (back_fitting_ppa Obj Sample Param cls kind default fit_mle fit argsort params set_order).

Lemma fit_original_spec : forall subset m m' l, fit_original Obj Sample fit_mle subset m = (m', Ok l) ->
  l = m' /\ Forall2 (fun nv nv' => fst nv' = fst nv /\ exists s, draws_of subset (fst nv) s /\ fit_mle (snd nv) s = Ok (snd nv')) m m'.
Proof.
  intros subset. induction m as [|[n o] m IH]; intros m' l H; cbn [fit_original] in H.
  - injection H as <- <-. split; constructor.
  - destruct (lookup Sample subset n) as [s|e] eqn:L; cbn [bind] in H; [|discriminate].
    destruct (fit_mle o s) as [o'|e] eqn:F; [|discriminate].
    destruct (fit_original _ _ _ subset m) as [m1 [l1|e]]; cbn [bind] in H; [|discriminate].
    injection H as <- <-. destruct (IH m1 l1 eq_refl) as [-> K]. split; [reflexivity|]. constructor; [|exact K].
    split; [reflexivity|]. exists s. split; [now apply lookup_draws|exact F].
Qed.

(** The first list: every prior of the model, in order and under its own name, is the maximum likelihood fit of its own
    family to the draws of that very variable. These are also the distributions the model holds afterwards, and the
    parameters returned are theirs, in order. *)
Theorem C70_original : forall m subset nf m' first second ps, back m subset nf = (m', Ok (first, second, ps)) ->
  first = m' /\
  Forall2 (fun nv nv' => fst nv' = fst nv /\ exists s, draws_of subset (fst nv) s /\ fit_mle (snd nv) s = Ok (snd nv')) m m' /\
  ps = List.concat (map params (map snd m')) /\ (second = None <-> nf = false).
Proof.
  intros m subset nf m' first second ps H. unfold back_fitting_ppa in H.
  destruct (fit_original _ _ _ subset m) as [m1 [l|e]] eqn:F; cbn [bind] in H; [|discriminate].
  apply fit_original_spec in F as [-> F].
  destruct nf.
  - destruct (new_loop _ _ _ _ _ _ _ _ _ _ _) as [l2|e]; cbn [bind] in H; [|discriminate].
    injection H as <- <- <- <-. repeat split; auto; try discriminate. now rewrite flat_map_concat_map, map_map.
  - cbn [bind] in H. injection H as <- <- <- <-. repeat split; auto. now rewrite flat_map_concat_map, map_map.
Qed.

(** If a prior cannot be fitted nothing is returned, although the priors before it have been changed already. *)
Theorem C70_failure : forall m subset nf m' e, back m subset nf = (m', Err e) ->
  exists done done' rest, m = done ++ rest /\ m' = done' ++ rest /\
    Forall2 (fun nv nv' => fst nv' = fst nv /\ exists s, draws_of subset (fst nv) s /\ fit_mle (snd nv) s = Ok (snd nv')) done done'.
Proof.
  intros m subset nf m' e H. unfold back_fitting_ppa in H.
  destruct (fit_original _ _ _ subset m) as [m1 rep] eqn:F. injection H as <- H. clear H.
  revert m1 rep F. induction m as [|[n o] m IH]; intros m1 rep F; cbn [fit_original] in F.
  - injection F as <- <-. exists [], [], []. repeat split; constructor.
  - destruct (lookup Sample subset n) as [s|x] eqn:L; cbn [bind] in F.
    2: { injection F as <- <-. exists [], [], ((n, o) :: m). repeat split; constructor. }
    destruct (fit_mle o s) as [o'|x] eqn:Fo.
    2: { injection F as <- <-. exists [], [], ((n, o) :: m). repeat split; constructor. }
    destruct (fit_original _ _ _ subset m) as [m2 r2]. injection F as <- <-.
    destruct (IH m2 r2 eq_refl) as (d & d' & r & -> & -> & K).
    exists ((n, o) :: d), ((n, o') :: d'), r. repeat split; auto. constructor; [|exact K].
    split; [reflexivity|]. exists s. split; [now apply lookup_draws|exact Fo].
Qed.

(** A prior whose name has no draws ends the button press with KeyError; it and the priors after it are left as they were. *)
Theorem C70_no_draws : forall m subset nf n o before, (forall s, ~ draws_of subset n s) ->
  (forall nv, In nv before -> exists s o', draws_of subset (fst nv) s /\ lookup Sample subset (fst nv) = Ok s /\ fit_mle (snd nv) s = Ok o') ->
  snd (back (before ++ (n, o) :: m) subset nf) = Err KeyError.
Proof using.
  intros m subset nf n o before N B. unfold back_fitting_ppa.
  assert (X : snd (fit_original Obj Sample fit_mle subset (before ++ (n, o) :: m)) = Err KeyError).
  { induction before as [|[k v] before IH]; cbn [app fit_original].
    - destruct (lookup Sample subset n) as [s|e] eqn:L; [exfalso; apply (N s); now apply lookup_draws|].
      unfold lookup in L. destruct (find _ _); [discriminate|]. injection L as <-. reflexivity.
    - destruct (B (k, v) (or_introl eq_refl)) as (s & o' & _ & L & F). cbn [fst snd] in L, F. rewrite L. cbn [bind]. rewrite F.
      specialize (IH (fun nv I => B nv (or_intror I))). destruct (fit_original _ _ _ _ _) as [m2 r2]. cbn [snd] in *. subst r2. reflexivity. }
  destruct (fit_original _ _ _ _ _) as [m2 r2]. cbn [snd] in X. subst r2. reflexivity.
Qed.

Hypothesis argsort_ok : forall l, is_argsort l (argsort l).
Hypothesis set_ok : forall l, NoDup (set_order l) /\ forall x, In x (set_order l) <-> In x l.

(** New instances of the classes [names], in any order. *)
Definition instances_of (names : list string) (ds : list Obj) : Prop :=
  (forall n, In n names -> exists o, default n = Ok o /\ In o ds) /\ (forall o, In o ds -> exists n, In n names /\ default n = Ok o).

Lemma build_spec : forall names ds, build Obj default names = Ok ds -> instances_of names ds.
Proof using.
  induction names as [|n r IH]; intros ds H; cbn [build] in H.
  - injection H as <-. split; intros ? [].
  - destruct (default n) as [o|e] eqn:D; cbn [bind] in H; [|discriminate].
    destruct (build _ _ r) as [l|e]; cbn [bind] in H; [|discriminate]. injection H as <-.
    destruct (IH l eq_refl) as [A B]. split.
    + intros k [<-|K]; [exists o; split; [assumption|now left]|]. destruct (A k K) as (o' & E & I). exists o'. split; [assumption|now right].
    + intros k [<-|K]; [exists n; split; [now left|assumption]|]. destruct (B k K) as (n' & I & E). exists n'. split; [now right|assumption].
Qed.

Lemma fit_loop_spec : forall ds s l, fit_loop Obj Sample fit ds s = Ok l -> Forall2 (fun o x => fit o s = Ok x) ds l.
Proof using.
  induction ds as [|o r IH]; intros s l H; cbn [fit_loop] in H; [injection H as <-; constructor|].
  destruct (fit o s) as [x|e] eqn:F; cbn [bind] in H; [|discriminate].
  destruct (fit_loop _ _ _ r s) as [l'|e] eqn:G; cbn [bind] in H; [|discriminate]. injection H as <-. constructor; auto.
Qed.

Lemma mle_best : forall ds s fitted i rest b, mle Obj Sample cls fit argsort ds s = Ok (fitted, i :: rest) ->
  nth_error fitted i = Some b -> best_fit Obj Sample fit ds s b.
Proof using argsort_ok.
  intros ds s fitted i rest b H N. unfold mle in H. destruct (all_valid _ _ _); [|discriminate].
  destruct (fit_loop _ _ _ ds s) as [l|e] eqn:F; cbn [bind] in H; [|discriminate]. injection H as <- AE.
  apply fit_loop_spec in F. rewrite nth_error_map in N. destruct (nth_error l i) as [[b' li]|] eqn:Nl; [|discriminate]. cbn in N. injection N as ->.
  destruct (argsort_ok (map snd l)) as [PE SS]. rewrite AE in PE, SS.
  assert (LEN : List.length ds = List.length l) by (clear -F; induction F; cbn; congruence).
  assert (NTH : forall j c, nth_error ds j = Some c -> exists x, nth_error l j = Some x /\ fit c s = Ok x) by (intros j c Hj; exact (f2_nth _ _ _ _ _ F j c Hj)).
  destruct (nth_error ds i) as [c|] eqn:Nc.
  2: { apply nth_error_None in Nc. assert (nth_error l i <> None) by congruence. apply nth_error_Some in H. lia. }
  destruct (NTH i c Nc) as [x [Nx Fx]]. rewrite Nl in Nx. injection Nx as <-.
  exists c, li. split; [exact (nth_error_In _ _ Nc)|]. split; [exact Fx|].
  intros c' Hc. apply In_nth_error in Hc as [j Nj]. destruct (NTH j c' Nj) as [[o' lj] [Nx' Fx']]. exists o', lj. split; [exact Fx'|].
  assert (Vi : nth i (map snd l) NaN = li) by (apply nth_error_nth; now rewrite nth_error_map, Nl).
  assert (Vj : nth j (map snd l) NaN = lj) by (apply nth_error_nth; now rewrite nth_error_map, Nx').
  assert (J : In j (i :: rest)).
  { eapply Permutation_in; [symmetry; exact PE|]. apply in_seq. split; [lia|]. cbn. rewrite map_length. apply nth_error_Some. congruence. }
  destruct J as [->|J].
  - rewrite <- Vi, Vj. destruct lj as [x| | |]; [right|right|right|now left]; cbn; try reflexivity. apply xleb_fin. lra.
  - inversion SS as [|? ? _ FA]; subst. rewrite Forall_forall in FA. exact (FA _ J).
Qed.

(** The candidates the second list promises: the family of the prior and two common ones of its kind. *)
Definition families_for (k c : string) (names : list string) : Prop :=
  (k = "continuous" /\ names = [c; "Gamma"; "Exponential"]) \/ (k = "discrete" /\ names = [c; "Poisson"; "NegativeBinomial"]).

(** The second list: for every prior, a best fit to the draws of that very variable among new instances of the family of the
    prior and of two common families of its kind. *)
Theorem C70_new_families : forall m subset m' first l ps, back m subset true = (m', Ok (first, Some l, ps)) ->
  Forall (fun nv => kind (snd nv) = "continuous" \/ kind (snd nv) = "discrete") m' ->
  Forall2 (fun nv nb => fst nb = fst nv /\ exists s names offered,
    draws_of subset (fst nv) s /\ families_for (kind (snd nv)) (cls (snd nv)) names /\ instances_of names offered /\
    best_fit Obj Sample fit offered s (snd nb)) m' l.
Proof using argsort_ok set_ok.
  intros m subset m' first l ps H K. unfold back_fitting_ppa in H.
  destruct (fit_original _ _ _ subset m) as [m1 [l0|e]]; cbn [bind] in H; [|discriminate].
  destruct (new_loop _ _ _ _ _ _ _ _ _ _ _) as [l2|e] eqn:N; cbn [bind] in H; [|discriminate].
  injection H as <- <- <- <-.
  assert (P : forall subset m cur l, Forall (fun nv => kind (snd nv) = "continuous" \/ kind (snd nv) = "discrete") m ->
     new_loop Obj Sample cls kind default fit argsort set_order subset cur m = Ok l ->
     Forall2 (fun nv nb => fst nb = fst nv /\ exists s names offered,
       draws_of subset (fst nv) s /\ families_for (kind (snd nv)) (cls (snd nv)) names /\ instances_of names offered /\
       best_fit Obj Sample fit offered s (snd nb)) m l); [|exact (P _ _ _ _ K N)].
  clear -argsort_ok set_ok. intros subset m. induction m as [|[n o] m IH]; intros cur l K H; cbn [new_loop] in H; [injection H as <-; constructor|].
  apply Forall_cons_iff in K as [K0 K]. cbn [snd] in K0.
  assert (B : exists names ds, families_for (kind o) (cls o) names /\ instances_of names ds /\
    (if String.eqb (kind o) "continuous" then build Obj default (set_order (cls o :: common_cont))
     else if String.eqb (kind o) "discrete" then build Obj default (set_order (cls o :: common_disc))
     else match cur with Some ds => Ok ds | None => Err NameError end) = Ok ds).
  { destruct K0 as [K0|K0]; rewrite K0 in *; cbn [String.eqb Ascii.eqb Bool.eqb] in *.
    - destruct (build _ _ _) as [ds|e] eqn:E; cbn [bind] in H; [|discriminate].
      exists [cls o; "Gamma"; "Exponential"], ds. split; [now left|]. split; [|reflexivity].
      apply build_spec in E as [A B]. destruct (set_ok (cls o :: common_cont)) as [_ S]. split.
      + intros k I. apply A, S, I.
      + intros x I. destruct (B x I) as (k & I' & E). exists k. split; [apply S, I'|exact E].
    - destruct (build _ _ _) as [ds|e] eqn:E; cbn [bind] in H; [|discriminate].
      exists [cls o; "Poisson"; "NegativeBinomial"], ds. split; [now right|]. split; [|reflexivity].
      apply build_spec in E as [A B]. destruct (set_ok (cls o :: common_disc)) as [_ S]. split.
      + intros k I. apply A, S, I.
      + intros x I. destruct (B x I) as (k & I' & E). exists k. split; [apply S, I'|exact E]. }
  destruct B as (names & ds & F1 & F2 & F3). rewrite F3 in H. cbn [bind] in H.
  destruct (lookup Sample subset n) as [s|e] eqn:L; cbn [bind] in H; [|discriminate].
  destruct (mle _ _ _ _ _ ds s) as [[fitted idx]|e] eqn:M; cbn [bind] in H; [|discriminate].
  destruct idx as [|i rest]; [discriminate|]. destruct (nth_error fitted i) as [b|] eqn:E; cbn [bind] in H; [|discriminate].
  destruct (new_loop _ _ _ _ _ _ _ _ subset _ m) as [l'|e] eqn:R; cbn [bind] in H; [|discriminate]. injection H as <-.
  constructor; [|exact (IH _ _ K R)]. split; [reflexivity|]. exists s, names, ds. cbn [fst snd].
  split; [now apply lookup_draws|]. split; [exact F1|]. split; [exact F2|]. exact (mle_best _ _ _ _ _ _ M E).
Qed.

(** A Categorical prior makes the second list, and with it the whole answer, impossible: the classes considered include its
    own, which cannot be ranked. *)
Theorem C70_categorical_refuted : forall m subset n o m' r, In (n, o) m' -> kind o = "discrete" -> cls o = "Categorical" ->
  (forall o', default "Categorical" = Ok o' -> cls o' = "Categorical") ->
  back m subset true = (m', r) -> exists e, r = Err e.
Proof using set_ok.
  intros m subset n o m' r I K C DC H. unfold back_fitting_ppa in H.
  destruct (fit_original _ _ _ subset m) as [m1 rep]. injection H as <- <-.
  destruct rep as [l0|e]; cbn [bind]; [|now exists e].
  assert (P : forall m cur, In (n, o) m -> exists e, new_loop Obj Sample cls kind default fit argsort set_order subset cur m = Err e).
  { clear -K C DC set_ok. induction m as [|[n' o'] m IH]; intros cur I; [contradiction|]. cbn [new_loop].
    destruct I as [I|I].
    - injection I as -> ->. rewrite K. cbn [String.eqb Ascii.eqb Bool.eqb].
      destruct (build _ _ _) as [ds|e] eqn:B; cbn [bind]; [|now exists e].
      destruct (lookup _ _ _) as [s|e]; cbn [bind]; [|now exists e].
      assert (V : all_valid Obj cls ds = false).
      { apply build_spec in B as [B _]. destruct (set_ok (cls o :: common_disc)) as [_ S].
        destruct (B (cls o)) as (x & E & Ix); [apply S; now left|]. rewrite C in E. apply DC in E.
        clear -Ix E. induction ds as [|d ds IHd]; [contradiction|]. cbn [all_valid]. destruct Ix as [->|Ix].
        - now rewrite E.
        - rewrite (IHd Ix). apply andb_false_r. }
      unfold mle. rewrite V. cbn [bind]. now exists ValueError.
    - match goal with |- context [bind ?d _] => destruct d as [ds|e]; cbn [bind]; [|now exists e] end.
      destruct (lookup _ _ _) as [s|e]; cbn [bind]; [|now exists e].
      destruct (mle _ _ _ _ _ ds s) as [[fitted idx]|e]; cbn [bind]; [|now exists e].
      match goal with |- context [bind ?d _] => destruct d as [b|e]; cbn [bind]; [|now exists e] end.
      destruct (IH (Some fitted) I) as [e ->]. cbn [bind]. now exists e. }
  destruct (P m1 None I) as [e ->]. cbn [bind]. now exists e.
Qed.

(* ------------------------------------------------------------ the button *)
Variable take : Sample -> list nat -> Sample.
Notation button := (on_return_prior Obj Sample Param cls kind default fit_mle fit argsort params set_order take).

(** With at most four samples selected (by the user and the machine) no prior is touched. *)
Theorem C70_ask_for_more : forall m prior selected nf, (List.length selected <= 4)%nat ->
  button m prior selected nf = (m, Ok (AskForMore Obj)).
Proof using.
  intros. unfold on_return_prior. replace (Nat.ltb 4 (List.length selected)) with false; [reflexivity|]. symmetry. now apply Nat.ltb_ge.
Qed.

Lemma select_spec : forall prior selected names l, select Sample take prior selected names = Ok l ->
  Forall2 (fun n ns => fst ns = n /\ exists s, draws_of prior n s /\ snd ns = take s selected) names l.
Proof using.
  intros prior selected. induction names as [|n r IH]; intros l H; cbn [select] in H; [injection H as <-; constructor|].
  destruct (lookup _ prior n) as [s|e] eqn:L; cbn [bind] in H; [|discriminate].
  destruct (select _ _ _ _ r) as [l'|e]; cbn [bind] in H; [|discriminate]. injection H as <-.
  constructor; [|now apply IH]. split; [reflexivity|]. exists s. split; [now apply lookup_draws|reflexivity].
Qed.
Lemma draws_select : forall prior selected names l n s, select Sample take prior selected names = Ok l -> draws_of l n s ->
  exists s0, draws_of prior n s0 /\ s = take s0 selected.
Proof using.
  intros prior selected names l n s H (a & b & -> & _). apply select_spec in H.
  apply Forall2_app_inv_r in H as (n1 & n2 & _ & H & _). inversion H as [|k ? ? ? [E (s0 & D0 & E2)] _]. cbn in E, E2. subst. eauto.
Qed.

(** Otherwise each prior shown is fitted to the selected draws of its own variable. *)
Theorem C70_button : forall m prior selected nf m' first second, (4 < List.length selected)%nat ->
  button m prior selected nf = (m', Ok (Priors Obj first second)) ->
  first = m' /\
  Forall2 (fun nv nv' => fst nv' = fst nv /\ exists s, draws_of prior (fst nv) s /\ fit_mle (snd nv) (take s selected) = Ok (snd nv')) m m' /\
  (forall l, second = Some l -> Forall (fun nv => kind (snd nv) = "continuous" \/ kind (snd nv) = "discrete") m' ->
   Forall2 (fun nv nb => fst nb = fst nv /\ exists s names offered,
     draws_of prior (fst nv) s /\ families_for (kind (snd nv)) (cls (snd nv)) names /\ instances_of names offered /\
     best_fit Obj Sample fit offered (take s selected) (snd nb)) m' l).
Proof using argsort_ok set_ok.
  intros m prior selected nf m' first second L H. unfold on_return_prior in H.
  replace (Nat.ltb 4 (List.length selected)) with true in H by (symmetry; now apply Nat.ltb_lt).
  destruct (select _ _ _ _ _) as [subset|e] eqn:S; [|discriminate].
  destruct (back m subset nf) as [m1 [[[a b] ps]|e]] eqn:B; cbn [bind] in H; [|discriminate]. injection H as <- <- <-.
  pose proof (C70_original _ _ _ _ _ _ _ B) as (E1 & E2 & _ & E4). split; [exact E1|]. split.
  - eapply f2_weaken; [|exact E2]. intros [n o] [n' o'] [-> (s & D & F)]. split; [reflexivity|].
    destruct (draws_select _ _ _ _ _ _ S D) as (s0 & D0 & ->). eauto.
  - intros l -> K. assert (nf = true) as -> by (destruct nf; [reflexivity|]; destruct E4 as [_ E4]; discriminate (E4 eq_refl)).
    pose proof (C70_new_families _ _ _ _ _ _ B K) as F. eapply f2_weaken; [|exact F].
    intros [n o] [n' o'] [-> (s & names & ds & D & F1 & F2 & F3)]. split; [reflexivity|].
    destruct (draws_select _ _ _ _ _ _ S D) as (s0 & D0 & ->). exists s0, names, ds. auto.
Qed.
End P.

(* ------------------------------------------------------------ the hypotheses can be met *)
(** A sorting of positions as np.argsort promises it exists: insertion of one position after the other. *)
Definition np_leb (a b : xr) : bool := match b with NaN => true | _ => xleb a b end.
Fixpoint insert (l : list xr) (i : nat) (p : list nat) : list nat :=
  match p with [] => [i] | j :: r => if np_leb (nth i l NaN) (nth j l NaN) then i :: p else j :: insert l i r end.
Definition some_argsort (l : list xr) : list nat := fold_right (insert l) [] (seq 0 (List.length l)).

Lemma np_leb_le : forall a b, np_leb a b = true <-> np_le a b.
Proof.
  intros a b. unfold np_leb, np_le. destruct b; split; intro H; auto; try (destruct H as [H|H]; [discriminate|exact H]).
Qed.
Lemma np_le_total : forall a b, np_leb a b = false -> np_le b a.
Proof.
  intros [a| | |] [b| | |] H; cbn in H; try discriminate; try (right; reflexivity); try (now left).
  right. apply xleb_fin. destruct (Rle_dec b a) as [K|K]; [exact K|]. exfalso.
  assert (xleb (Fin a) (Fin b) = true) by (apply xleb_fin; lra). cbn in H0. congruence.
Qed.
Lemma np_le_trans : forall a b c, np_le a b -> np_le b c -> np_le a c.
Proof.
  assert (K : forall a b, np_le (Fin a) (Fin b) <-> (a <= b)%R).
  { intros a b. unfold np_le. rewrite xleb_fin. intuition discriminate. }
  intros [a| | |] [b| | |] [c| | |] A B; try (now left); try (right; reflexivity);
    try (destruct A as [A|A]; discriminate A); try (destruct B as [B|B]; discriminate B).
  apply K in A. apply K in B. apply K. lra.
Qed.
Lemma insert_perm : forall l i p, Permutation (insert l i p) (i :: p).
Proof.
  intros l i p. induction p as [|j p IH]; cbn [insert]; [reflexivity|]. destruct (np_leb _ _); [reflexivity|].
  rewrite IH. constructor.
Qed.
Lemma insert_sorted : forall l i p, StronglySorted (fun i j => np_le (nth i l NaN) (nth j l NaN)) p ->
  StronglySorted (fun i j => np_le (nth i l NaN) (nth j l NaN)) (insert l i p).
Proof.
  intros l i p H. induction H as [|j p H IH F]; cbn [insert]; [repeat constructor|].
  destruct (np_leb (nth i l NaN) (nth j l NaN)) eqn:E.
  - apply np_leb_le in E. constructor; [constructor; assumption|]. constructor; [exact E|].
    eapply Forall_impl; [|exact F]. intros k K. exact (np_le_trans _ _ _ E K).
  - apply np_le_total in E. constructor; [exact IH|]. eapply Permutation_Forall; [symmetry; apply insert_perm|]. constructor; assumption.
Qed.
Lemma some_argsort_ok : forall l, is_argsort l (some_argsort l).
Proof.
  intro l. unfold is_argsort, some_argsort. generalize (seq 0 (List.length l)) as p. induction p as [|i p [A B]]; cbn [fold_right].
  - split; constructor.
  - split; [rewrite insert_perm; now constructor|now apply insert_sorted].
Qed.
Lemma nodup_set_ok : forall l, NoDup (nodup string_dec l) /\ forall x, In x (nodup string_dec l) <-> In x l.
Proof. intro l. split; [apply NoDup_nodup|apply nodup_In]. Qed.

(** A model with a continuous and a discrete prior. Objects are a class with the draws they were fitted to. *)
Definition toy_kind (o : string * list nat) : string := if String.eqb (fst o) "Poisson" then "discrete" else "continuous".
Definition toy_best (o : string * list nat) (s : list nat) : res ((string * list nat) * xr) :=
  Ok ((fst o, s), if String.eqb (fst o) "Exponential" || String.eqb (fst o) "Poisson" then NInf else PInf).
Example C70_applies : exists m',
  on_return_prior (string * list nat) (list nat) nat fst toy_kind (fun n => Ok (n, [])) (fun o s => Ok (fst o, s)) toy_best
    some_argsort snd (nodup string_dec) (fun s idx => map (fun i => nth i s 0%nat) idx)
    [("a", ("Normal", [])); ("b", ("Poisson", []))] [("b", [6; 7; 8; 9; 10]); ("a", [1; 2; 3; 4; 5])]%nat [4; 3; 2; 1; 0]%nat true =
  (m', Ok (Priors (string * list nat) m'
     (Some [("a", ("Exponential", [5; 4; 3; 2; 1])); ("b", ("Poisson", [10; 9; 8; 7; 6]))]%nat))) /\
  m' = [("a", ("Normal", [5; 4; 3; 2; 1])); ("b", ("Poisson", [10; 9; 8; 7; 6]))]%nat /\
  Forall (fun nv => toy_kind (snd nv) = "continuous" \/ toy_kind (snd nv) = "discrete") m'.
Proof.
  eexists. split; [vm_compute; reflexivity|]. split; [reflexivity|]. constructor; [left; reflexivity|]. constructor; [right; reflexivity|]. constructor.
Qed.

Print Assumptions C70_original.
Print Assumptions C70_failure.
Print Assumptions C70_no_draws.
Print Assumptions C70_new_families.
Print Assumptions C70_categorical_refuted.
Print Assumptions C70_ask_for_more.
Print Assumptions C70_button.
